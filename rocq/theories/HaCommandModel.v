(** The harmonic calculator as the command uses it, from the text of the input
    file to the log and the result file.
    - /repo/quantas/harmonic/harmonic.py:99-156 (constructor, read_input), 158-182
      (report_input_data), 211-294 (run), 296-336 (export_hdf5)
    - /repo/quantas/harmonic/commands/cmd_ha.py:35-161
    Parameters: what PyYAML makes of the text, the printed times, the bytes h5py
    makes of the stored data, what unchecked reads behind the end of an array
    find, and runs on documents with 'nan' or with weights which sum to zero. One
    event per printed line. Numbers are exact reals. *)
From Coq Require Import Reals String Ascii List Bool Arith ZArith.
From Flocq Require Import Core.
From Verif Require Import Py DecimalModel FormatModel FormatProofs TableModel StoreModel UnitsModel GridModel ReportModel QhaReportModel H5Model PhononInputModel.
From Verif Require StatMechModel QhaReaderModel QhaRunModel CliModel CitationsModel.
Import ListNotations.
Open Scope string_scope.
Open Scope list_scope.
Open Scope nat_scope.

(** The options of the command (click checks the units, cmd_ha.py:40-55) *)
Record ha_options := { trange : R * R * R; eunit_o : string; vunit_o : string; funit_o : string; tunit_o : string }.
(** cmd_ha.py:84-93; the fields which only the quasi-harmonic calculator reads are arbitrary *)
Definition ha_settings (u : ha_options) : QhaRunModel.settings :=
  {| QhaRunModel.qha_scheme := ""; QhaRunModel.minimization := ""; QhaRunModel.eos_function := ""; QhaRunModel.kieffer_on := false; QhaRunModel.edeg := 0; QhaRunModel.fdeg := 0;
     QhaRunModel.eunit := eunit_o u; QhaRunModel.funit := if String.eqb (funit_o u) "cm-1" then "cm^-1" else funit_o u; QhaRunModel.vunit := vunit_o u; QhaRunModel.tunit := tunit_o u; QhaRunModel.punit := "GPa" |}.

(** cmd_ha.py:133-161: ' - {:5} {: 8.2f} {}' and ' - {:12} {}' *)
Definition range_line (label : string) (x : R) (unit : string) : string := " - " +++ pad_right 5 label +++ " " +++ right 8 2 (Fin x) +++ " " +++ unit.
Definition unit_line (label unit : string) : string := " - " +++ pad_right 12 label +++ " " +++ unit.
Definition settings_lines (u : ha_options) : list string :=
  let s := ha_settings u in let '(lo, hi, step) := trange u in
  [""; "Calculator: Harmonic Approximation"; ""; "Temperature settings"; "-------------------------------------";
   range_line "min:" lo (QhaRunModel.tunit s); range_line "max:" hi (QhaRunModel.tunit s); range_line "step:" step (QhaRunModel.tunit s);
   ""; "Measurement units"; "-------------------------------------";
   unit_line "energy:" (QhaRunModel.eunit s); unit_line "lenght:" (QhaRunModel.vunit s); unit_line "frequency:" (QhaRunModel.funit s); unit_line "temperature:" (QhaRunModel.tunit s)].
Definition print_settings (u : ha_options) : string := concat_map (fun l => l +++ nl) (settings_lines u).

(** '{0}{1:-^78}{0}'.format('#', title) *)
Definition banner (title : string) : string :=
  let free := 78 - String.length title in
  "#" +++ fill "-"%char (free / 2) +++ title +++ fill "-"%char (free - free / 2) +++ "#".
Definition say : list string -> list CliModel.event := map CliModel.Say.

Section Calculator.
Variable K : constants.
Variables hplanck kboltzmann : R.
Variable yaml_load : string -> QhaReaderModel.parsed.
(** '{0:8.2f}' of the time of each step, '{0:6.2f}' of the total time *)
Variable times : nat -> string.
Variable total_time : string.
Variable encode : result_file -> string.
(** What the loops of internal_energy and free_energy (compiled without bounds
    checks) add to the static energy behind the last volume *)
Variable memory : string -> nat -> nat -> R.
Variable special_case : QhaReaderModel.yaml -> CliModel.method (option string) * string.

Section Job.
Variables (u : ha_options) (temperature : list R) (out : string) (y : QhaReaderModel.yaml).
Let s := ha_settings u.
(** harmonic.py:158-182 *)
Definition volume_row (k : nat) : QhaReaderModel.outcome string :=
  let! v := QhaReaderModel.volume y in let! a := index v k in let! e := QhaReaderModel.energy y in let! b := index e k in
  QhaReaderModel.Ok (" " +++ match a with Num x => centred 15 6 (Fin x) | NaN => centred 15 6 Nan end +++ " " +++
         match b with Num x => centred_e 30 12 x | NaN => center 30 "nan" end).
Definition report_rows : list (QhaReaderModel.outcome string) :=
  match QhaReaderModel.nvol y with QhaReaderModel.Ok n => map volume_row (seq 0 n) | QhaReaderModel.Raises e => [QhaReaderModel.Raises e] end.
Definition report_lines : list (QhaReaderModel.outcome string) :=
  [QhaReaderModel.Ok ""; (let! j := QhaReaderModel.jobname y in QhaReaderModel.Ok ("Job: " +++ j)); QhaReaderModel.Ok ""; QhaReaderModel.Ok "System:";
   (let! n := QhaReaderModel.nvol y in QhaReaderModel.Ok (item "Number of volumes" (int_text (Z.of_nat n))));
   (let! n := QhaReaderModel.natoms y in QhaReaderModel.Ok (item "Number of atoms" (int_text (Z.of_nat n))));
   (let! k := kpoints y in QhaReaderModel.Ok (item "Number of sampled k-points" (int_text k)));
   (let! n := QhaReaderModel.natoms y in let! t := QhaReaderModel.total_q_points y in
    match t with
    | Num x => QhaReaderModel.Ok (item "Number of frequencies" (int_text (Ztrunc (IZR (Z.of_nat n * 3) * x))))
    | NaN => QhaReaderModel.Raises "ValueError"
    end);
   QhaReaderModel.Ok ""; QhaReaderModel.Ok "Volume and energy values:"; QhaReaderModel.Ok "";
   QhaReaderModel.Ok (" " +++ center 15 ("Volume (" +++ QhaRunModel.vunit s +++ "^3)") +++ " " +++ center 30 ("Energy (" +++ QhaRunModel.eunit s +++ ")"));
   QhaReaderModel.Ok (" " +++ rule 15 +++ " " +++ rule 30)] ++ report_rows ++ [QhaReaderModel.Ok ""].

(** harmonic.py:211-294 *)
Definition step_lines (k : nat) (text : string) : list string := [" - " +++ text; "   Finished, elapsed time " +++ times k +++ " sec"; ""].
Definition start_lines : list string := [banner "Harmonic Approximation calculation started"; ""].
Definition work_lines : list string :=
  step_lines 0 "Start calculation of zero-point energy" ++ step_lines 1 "Start calculation of thermal internal energy" ++
  step_lines 2 "Start calculation of entropy" ++ step_lines 3 "Start calculation of isochoric heat capacity" ++
  step_lines 4 "Start calculation of vibrational Helmholtz free energy" ++
  step_lines 5 "Calculate total internal internal energy and Helmholtz free energy" ++
  ["All done!"; ""; "Total calculation time: " +++ total_time +++ " sec"; banner "HA calculations finished"; ""].
(** The unit conversions cannot fail for the units which click accepts. *)
Definition ha_results : QhaReaderModel.outcome (option (QhaRunModel.input * QhaRunModel.ha_results)) :=
  let! x := phonon_input y in
  match x with
  | None => QhaReaderModel.Ok None
  | Some x => match QhaRunModel.ha_run K hplanck kboltzmann s x temperature with QhaRunModel.Ok r => QhaReaderModel.Ok (Some (x, r)) | QhaRunModel.Raises e => QhaReaderModel.Raises e end
  end.
Definition ha_run : CliModel.method (option string) :=
  match ha_results with
  | QhaReaderModel.Raises e => (say start_lines, CliModel.Raises e)
  | QhaReaderModel.Ok None => fst (special_case y)
  | QhaReaderModel.Ok (Some _) => (say (start_lines ++ work_lines), CliModel.Ok None)
  end.
(** 296-336. With more energies than volumes, U0 and the tables Utot and F have a
    column for each energy. *)
Definition widened (energies : list R) (x : QhaRunModel.input) (r : QhaRunModel.ha_results) (f : result_file) : result_file :=
  let ne := List.length energies in let nt := List.length temperature in
  let wide name (t : nat -> nat -> R) := array_of nt ne (fun i j => if j <? QhaRunModel.nvol x then t i j else (nth j energies 0 + memory name i j)%R) in
  let change (d : string * stored) : string * stored :=
    (fst d, {| content := if String.eqb (fst d) "U0" then Vec energies
                          else if String.eqb (fst d) "Utot" then wide "Utot" (QhaRunModel.ha_Utot r)
                          else if String.eqb (fst d) "F" then wide "F" (QhaRunModel.ha_F r)
                          else content (snd d);
               attributes := attributes (snd d) |}) in
  {| about := about f; named := map change (named f) |}.
Definition ha_saved : string :=
  match ha_results, QhaReaderModel.jobname y, QhaReaderModel.energy y with
  | QhaReaderModel.Ok (Some (x, r)), QhaReaderModel.Ok name, QhaReaderModel.Ok e =>
      encode (widened (map val (items e)) x r (ha_result_file s name x temperature r))
  | _, _, _ => snd (special_case y)
  end.
Definition ha_job : CliModel.job :=
  {| CliModel.report_input_data := printing report_lines;
     CliModel.run := ha_run;
     CliModel.report_results := ([], CliModel.Ok tt);
     CliModel.saved := ha_saved;
     CliModel.exported := say ["Calculated data exported to " +++ out] |}.
End Job.
(** After an empty document there is no 'input' attribute: reporting it raises. *)
Definition no_input : CliModel.job :=
  {| CliModel.report_input_data := ([], CliModel.Raises "AttributeError"); CliModel.run := ([], CliModel.Raises "AttributeError");
     CliModel.report_results := ([], CliModel.Ok tt); CliModel.saved := ""; CliModel.exported := [] |}.

(** harmonic.py:99-110, 121-137 *)
Definition ha_new (u : ha_options) : CliModel.method unit :=
  ([], match set_range (trange u) with Some _ => CliModel.Ok tt | None => CliModel.Raises "ZeroDivisionError" end).
Definition ha_temperature (u : ha_options) : list R := match set_range (trange u) with Some l => l | None => [] end.
(** 139-156; the message ends with an empty line *)
Definition ha_read (u : ha_options) (filename out text : string) : CliModel.method (string + CliModel.job) :=
  let begin := say ["Reading input file: " +++ filename; ""] in
  match QhaReaderModel.ha_read_input (yaml_load text) with
  | QhaReaderModel.Raises e => (begin, CliModel.Raises e)
  | QhaReaderModel.Ok (Some err, _) => (begin, CliModel.Ok (inl err))
  | QhaReaderModel.Ok (None, Some r) =>
      match QhaReaderModel.contents r with
      | Some y => (begin, CliModel.Ok (inr (ha_job u (ha_temperature u) out y)))
      | None => (begin, CliModel.Ok (inr no_input))
      end
  | QhaReaderModel.Ok (None, None) => (begin, CliModel.Ok (inr no_input))
  end.
Definition ha_calculator (u : ha_options) (filename out : string) : CliModel.calculator :=
  {| CliModel.new := ha_new u; CliModel.read_input := ha_read u filename out |}.
(** cmd_ha.py:61-130 *)
Definition ha_main (u : ha_options) (filename : string) (outfile : option string) (silent debug : bool) (answer : CliModel.result bool) : CliModel.M unit :=
  let c := CliModel.ha_command (print_settings u) in
  CliModel.main CitationsModel.ha_texts c filename outfile silent debug (ha_calculator u filename (CliModel.outpath c filename outfile)) answer.
End Calculator.
