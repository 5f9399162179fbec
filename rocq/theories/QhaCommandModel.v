(** The quasi-harmonic calculator as the command uses it, from the text of the
    input file to the log and the result file.
    - /repo/quantas/qha/qha.py:144-184 (constructor), 322-344 (read_input), 346-436
      (report_input_data), 438-478 (run), 480-934 (the messages of the two schemes
      and of _finalize_run), 1192-1300 (report_results, export_hdf5)
    - /repo/quantas/qha/commands/cmd_qha.py:105-250
    Parameters: what PyYAML makes of the text, numpy's and scipy's fits and roots,
    the printed times, the shortest text of a float, the bytes h5py makes of the
    stored data, and the whole job on documents which are set apart: 'nan' among the
    numbers, weights which sum to zero, an energy which is not a list, one energy
    for an equation of state; and on empty ranges of temperature or pressure. One
    event per printed line; progress bars (on the screen only) are left out. Numbers
    are exact reals. *)
From Coq Require Import Reals String Ascii List Bool Arith ZArith.
From Flocq Require Import Core.
From Verif Require Import Py DecimalModel FormatModel FormatProofs TableModel StoreModel UnitsModel GridModel EvEosModel ReportModel QhaReportModel H5Model PhononInputModel HaCommandModel.
From Verif Require StatMechModel QhaReaderModel QhaRunModel CliModel CitationsModel.
Import ListNotations.
Open Scope string_scope.
Open Scope list_scope.
Open Scope nat_scope.

(** The options of the command (cmd_qha.py:50-104; click checks the choices) *)
Record qha_options := {
  scheme : string; minim : string; acoustic : bool; temperatures : R * R * R; pressures : R * R * R; energy_degree : nat; frequency_degree : nat;
  eos_tag : string; eunit_q : string; vunit_q : string; funit_q : string; tunit_q : string; punit_q : string }.
(** cmd_qha.py:35-47 *)
Definition eos_formulation (tag : string) : string :=
  if String.eqb tag "M" then "Murnaghan" else if String.eqb tag "BM" then "3rd-order Birch-Murnaghan"
  else if String.eqb tag "PT" then "3rd-order Poirier-Tarantola" else "3rd-order Vinet".
Definition eos_function_of (tag : string) : string :=
  if String.eqb tag "M" then "murnaghan" else if String.eqb tag "BM" then "birchmurnaghan"
  else if String.eqb tag "PT" then "pouriertarantola" else "vinet".
(** 128-146 *)
Definition qha_settings (u : qha_options) : QhaRunModel.settings :=
  {| QhaRunModel.qha_scheme := scheme u; QhaRunModel.minimization := minim u; QhaRunModel.eos_function := eos_function_of (eos_tag u); QhaRunModel.kieffer_on := acoustic u;
     QhaRunModel.edeg := energy_degree u; QhaRunModel.fdeg := frequency_degree u; QhaRunModel.eunit := eunit_q u;
     QhaRunModel.funit := if String.eqb (funit_q u) "cm-1" then "cm^-1" else funit_q u; QhaRunModel.vunit := vunit_q u; QhaRunModel.tunit := tunit_q u; QhaRunModel.punit := punit_q u |}.

(** 187-250; ' - {:10} {}' of an integer. The text is not cut into lines where the
    scheme or the minimisation is none of the two. *)
Definition long_rule : string := "-------------------------------------".
Definition degree_line (label : string) (n : nat) : string := " - " +++ pad_right 10 label +++ " " +++ int_text (Z.of_nat n).
Definition approach_lines (u : qha_options) : list string :=
  [" - scheme: " +++ (if String.eqb (scheme u) "freq" then "frequency interpolation" else "thermodynamics interpolation")] ++
  (if String.eqb (minim u) "eos" then [" - volume minimization: Equation of State (EoS)"; " - EoS formulation: " +++ eos_formulation (eos_tag u)]
   else [" - volume minimization: polynomial functions"]) ++
  [" - use Kieffer's approach: " +++ (if acoustic u then "Yes" else "No")].
Definition range_lines (r : R * R * R) (unit : string) : list string :=
  let '(lo, hi, step) := r in [range_line "min:" lo unit; range_line "max:" hi unit; range_line "step:" step unit].
Definition qha_settings_lines (u : qha_options) : list string :=
  let s := qha_settings u in
  [""; "Calculator: Quasi-Harmonic Approximation"; ""; "Quasi-Harmonic Approximation approach"; long_rule] ++ approach_lines u ++
  [""; "Polynomial fitting settings (degree)"; long_rule; degree_line "energy:" (QhaRunModel.edeg s); degree_line "frequency:" (QhaRunModel.fdeg s);
   ""; "Temperature settings"; long_rule] ++ range_lines (temperatures u) (QhaRunModel.tunit s) ++
  [""; "Pressure settings"; long_rule] ++ range_lines (pressures u) (QhaRunModel.punit s) ++
  [""; "Measurement units"; long_rule;
   unit_line "energy:" (QhaRunModel.eunit s); unit_line "lenght:" (QhaRunModel.vunit s); unit_line "frequency:" (QhaRunModel.funit s);
   unit_line "temperature:" (QhaRunModel.tunit s); unit_line "pressure:" (QhaRunModel.punit s)].
Definition qha_print_settings (u : qha_options) : string := concat_map (fun l => l +++ nl) (qha_settings_lines u).

(** A method which prints, each message computed when it is printed. *)
Fixpoint performing (l : list (QhaReaderModel.outcome CliModel.event)) : CliModel.method unit :=
  match l with
  | [] => ([], CliModel.Ok tt)
  | QhaReaderModel.Ok s :: r => (s :: fst (performing r), snd (performing r))
  | QhaReaderModel.Raises e :: _ => ([], CliModel.Raises e)
  end.
Definition said (l : list string) : list (QhaReaderModel.outcome CliModel.event) := map (fun m => QhaReaderModel.Ok (CliModel.Say m)) l.
Definition saying (o : QhaReaderModel.outcome string) : QhaReaderModel.outcome CliModel.event := let! m := o in QhaReaderModel.Ok (CliModel.Say m).
Definition run_outcome {A} (o : QhaRunModel.outcome A) : QhaReaderModel.outcome A :=
  match o with QhaRunModel.Ok a => QhaReaderModel.Ok a | QhaRunModel.Raises e => QhaReaderModel.Raises e end.

Section Calculator.
Variable K : constants.
Variables hplanck kboltzmann : R.
Variable yaml_load : string -> QhaReaderModel.parsed.
Variable np_polyfit : nat -> (nat -> R) -> (nat -> R) -> nat -> list R.
Variable roots : list R -> list (R * R).
(** EnergyEOS.fit: parameters E0, K0, K', V0, and their standard errors *)
Variable eos_fit : string -> nat -> (nat -> R) -> (nat -> R) -> QhaRunModel.outcome ((R * R * R * R) * (shown * shown * shown * shown)).
Variable float_text : R -> string.
(** '{0:15.3f}' of the times in thousandths of a second, '{0:6.2f}' of the total *)
Variable times : nat -> string.
Variable total_time : string.
Variable encode : result_file -> string.
Definition eos_parameters (tag : string) (n : nat) (V E : nat -> R) : QhaRunModel.outcome (R * R * R * R) :=
  QhaRunModel.bind (eos_fit tag n V E) (fun f => QhaRunModel.Ok (fst f)).

Section Job.
Variables (u : qha_options) (temperature pressure : list R) (out : string) (y : QhaReaderModel.yaml).
Let s := qha_settings u.
(** The volumes and energies as the report uses them: np.gradient needs one energy
    for each volume (ValueError), and so does the sum F + P V of find_eos_minimum,
    but for a single energy. None: set apart. *)
Definition static_data : QhaReaderModel.outcome (option QhaRunModel.input) :=
  let! v := QhaReaderModel.volume y in
  let! e := QhaReaderModel.energy y in
  match v, e with
  | QhaReaderModel.Array v, QhaReaderModel.Array e =>
      if (forallb is_num v && forallb is_num e)%bool then
        if List.length v =? List.length e then
          QhaReaderModel.Ok (Some
            {| QhaRunModel.nvol := List.length v; QhaRunModel.volume := (fun k => val (nth k v (Num 0))); QhaRunModel.static_energy := (fun k => val (nth k e (Num 0)));
               QhaRunModel.frequencies := {| StatMechModel.nb := 0; StatMechModel.nf := 0; StatMechModel.nv := 0; StatMechModel.freq := fun _ _ _ => 0%R |};
               QhaRunModel.weights := fun _ => 0%R; QhaRunModel.total_q_points := 0%R |})
        else if (QhaRunModel.eos_on s && (List.length e =? 1))%bool then QhaReaderModel.Ok None
        else QhaReaderModel.Raises "ValueError"
      else QhaReaderModel.Ok None
  | _, _ => QhaReaderModel.Ok None
  end.
(** qha.py:371-384, and the lines of the parameters with their own exceptions *)
Definition pressures_at (x : QhaRunModel.input) : QhaRunModel.outcome ((nat -> R) * list (QhaRunModel.outcome string)) :=
  if QhaRunModel.eos_on s then
    QhaRunModel.bind (eos_fit (QhaRunModel.eos_function s) (QhaRunModel.nvol x) (QhaRunModel.volume x) (fun k => (QhaRunModel.static_energy x k + 0 * QhaRunModel.volume x k)%R)) (fun f =>
    let '((e0, k0, k1, v0), (se, sk, sk1, sv)) := f in
    QhaRunModel.bind (QhaRunModel.e2p K s k0) (fun k =>
    QhaRunModel.bind (scale_shown (QhaRunModel.e2p K s) sk) (fun sk' =>
    match EvEosModel.pressure (QhaRunModel.eos_function s) e0 k k1 v0 0 with
    | None => QhaRunModel.Raises "UnboundLocalError"
    | Some _ => QhaRunModel.Ok
        ((fun i => match EvEosModel.pressure (QhaRunModel.eos_function s) e0 k k1 v0 (QhaRunModel.volume x i) with Some p => p | None => 0%R end),
         [QhaRunModel.Ok ""; QhaRunModel.Ok "EoS fitting parameters for static energy vs volume data:"] ++
         map (fun '(l, v, e) => concise float_text l v e) [("E0", e0, se); ("K0", k, sk'); ("K'", k1, sk1); ("V0", v0, sv)])
    end)))
  else
    QhaRunModel.bind (np_gradient (QhaRunModel.nvol x) (QhaRunModel.static_energy x) (QhaRunModel.volume x)) (fun g =>
    QhaRunModel.bind (QhaRunModel.conversion (fun e => energy_to_pressure K e (QhaRunModel.eunit s) (QhaRunModel.vunit s) (QhaRunModel.punit s))) (fun c =>
    QhaRunModel.Ok ((fun i => (- c (g i))%R), []))).
(** qha.py:393-395 *)
Definition table_row (ps : nat -> R) (x : QhaRunModel.input) (i : nat) : string :=
  " " +++ right 15 3 (Fin (ps i)) +++ " " +++ centred 15 6 (Fin (QhaRunModel.volume x i)) +++ " " +++ centred_e 30 12 (QhaRunModel.static_energy x i).
(** 387-436; the warning is one message *)
Definition warning_text : string :=
  "WARNING! The Kieffer's method for acoustic frequencies was requested." +++ nl +++ "However, it seems that more than Gamma-point phonons are reported in " +++ nl +++
  "the provided input file." +++ nl +++ "Please, check the consistency of the final results.".
Definition table_events (x : QhaRunModel.input) : list (QhaReaderModel.outcome CliModel.event) :=
  match pressures_at x with
  | QhaRunModel.Raises e => [QhaReaderModel.Raises e]
  | QhaRunModel.Ok (ps, parameters) =>
      said ([" " +++ pad_right 15 ("Pressure (" +++ QhaRunModel.punit s +++ ")") +++ " " +++ center 15 ("Volume (" +++ QhaRunModel.vunit s +++ "^3)") +++ " " +++ center 30 ("Energy (" +++ QhaRunModel.eunit s +++ ")");
             " " +++ rule 15 +++ " " +++ rule 15 +++ " " +++ rule 30] ++ map (table_row ps x) (seq 0 (QhaRunModel.nvol x))) ++
      map (fun o => saying (run_outcome o)) parameters ++ said [""] ++
      match kpoints y with
      | QhaReaderModel.Ok k => if ((1 <? k)%Z && QhaRunModel.kieffer_on s)%bool then [QhaReaderModel.Ok (CliModel.Warn warning_text)] else []
      | QhaReaderModel.Raises e => [QhaReaderModel.Raises e]
      end ++ said [""]
  end.
(** 355-370 *)
Definition heading_events : list (QhaReaderModel.outcome CliModel.event) :=
  map saying
  [QhaReaderModel.Ok ""; (let! j := QhaReaderModel.jobname y in QhaReaderModel.Ok ("Job: " +++ j)); QhaReaderModel.Ok ""; QhaReaderModel.Ok "System:";
   (let! n := QhaReaderModel.nvol y in QhaReaderModel.Ok (item "Number of volumes" (int_text (Z.of_nat n))));
   (let! n := QhaReaderModel.natoms y in QhaReaderModel.Ok (item "Number of atoms" (int_text (Z.of_nat n))));
   (let! k := kpoints y in QhaReaderModel.Ok (item "Number of sampled k-points" (int_text k)));
   (let! n := QhaReaderModel.natoms y in let! t := QhaReaderModel.total_q_points y in
    match t with
    | Num x => QhaReaderModel.Ok (item "Number of frequencies" (int_text (Ztrunc (IZR (Z.of_nat n * 3) * x))))
    | NaN => QhaReaderModel.Raises "ValueError"
    end);
   QhaReaderModel.Ok ""; QhaReaderModel.Ok "Volume and energy values:"; QhaReaderModel.Ok ""].
Definition qha_report : CliModel.method unit :=
  performing (heading_events ++
    match static_data with
    | QhaReaderModel.Raises e => [QhaReaderModel.Raises e]
    | QhaReaderModel.Ok (Some x) => table_events x
    | QhaReaderModel.Ok None => []
    end).

(** echo_time (core/calculator.py:115-119), and the lines with a label of 40
    characters; the message of echo_time ends with an empty line *)
Definition time_lines (k : nat) : list string := ["   Operation time " +++ times k +++ " msec"; ""].
Definition timed (k : nat) (label : string) : string := pad_right 40 ("    * " +++ label) +++ " - elapsed time " +++ times k +++ " msec".
Definition timed_lines (k : nat) (labels : list string) : list string := map (fun i => timed (k + i) (nth i labels "")) (seq 0 (List.length labels)).
(** 442-478 *)
Definition run_start : list CliModel.event :=
  say [banner "Quasi-Harmonic Approximation calculation started"; ""] ++ [CliModel.Debug "Grid expansion set"].
Definition minimizing : CliModel.event :=
  CliModel.SayAlways (" - Volume minimization using " +++ (if QhaRunModel.poly_on s then "polynomials" else "EoS") +++ ":").
(** 500-555, up to the loop over temperatures which minimises *)
Definition frequency_start (phonons : StatMechModel.bands) (x : QhaRunModel.input) : list CliModel.event :=
  [CliModel.Debug "Switch to frequency interpolation mode"] ++
  say (report_fits s x np_polyfit phonons ++ time_lines 0 ++ [" - Calculation of harmonic Helmoltz free energy F(V,T)"] ++ time_lines 1) ++ [minimizing].
(** 556-625 *)
Definition frequency_end : list CliModel.event :=
  say (time_lines 2) ++ [CliModel.SayAlways " - Calculation of quasi-harmonic thermodynamic properties"] ++ say (time_lines 3).
Definition quantities : list string :=
  ["zero-point energy"; "thermal internal energy"; "entropy"; "isochoric heat capacity"; "vibrational free energy"; "total internal energy"; "total Helmholtz free energy"].
(** 650-770 *)
Definition thermodynamics_start : list CliModel.event :=
  [CliModel.Debug "Switch to thermodynamics interpolation mode"] ++
  say ([" - Calculation of harmonic thermodynamic properties:"] ++ timed_lines 0 (firstn 5 quantities ++ ["finalization (total U and F)"]) ++
       ["   HA calculation time " +++ times 6 +++ " msec"; ""; " - Polynomial regression of harmonic thermodynamic properties [f(V)]:"] ++
       timed_lines 7 quantities ++ time_lines 14) ++ [minimizing].
(** 782-849 *)
Definition thermodynamics_end : list CliModel.event :=
  say (time_lines 15 ++ [" - Thermodynamic interpolation at V(T,P):"] ++ timed_lines 16 quantities ++ time_lines 23) ++
  if QhaRunModel.poly_on s then [CliModel.SayAlways " - Calculation of bulk modulus:"] ++ say (time_lines 24) else [].
(** 851-934, 473-476 *)
Definition finalize_events : list CliModel.event :=
  say ([" - Calculation of enthalpy H(T,P) and Gibbs free energy G(T,P):"] ++ timed_lines 25 ["enthalpy"; "Gibbs free energy"] ++ time_lines 27) ++
  (if List.length temperature <? 50 then
     map CliModel.Warn [" - WARNING! The calculation of:"; "   * volumetric thermal expansion coefficient"; "   * isobaric heat capacity"; "   * adiabatic bulk modulus";
       "   requires at least 50 points of temperatures."; ""]
   else say ([" - Calculation of volumetric thermal expansion coefficient:"] ++ time_lines 28 ++ ["  - Calculation of isobaric heat capacity"] ++ time_lines 29 ++
             ["  - Calculation of adiabatic bulk modulus K_S(P,T)"] ++ time_lines 30 ++ ["  - Calculation of Gruneisen parameters"] ++ time_lines 31)) ++
  say [""; "Total wall time: " +++ total_time +++ " sec"; banner "QHA Calculation ended"].
Definition work_start (phonons : StatMechModel.bands) (x : QhaRunModel.input) : list CliModel.event :=
  if String.eqb (QhaRunModel.qha_scheme s) "td" then thermodynamics_start
  else if String.eqb (QhaRunModel.qha_scheme s) "freq" then frequency_start phonons x else [].
Definition work_end : list CliModel.event :=
  (if String.eqb (QhaRunModel.qha_scheme s) "td" then thermodynamics_end
   else if String.eqb (QhaRunModel.qha_scheme s) "freq" then frequency_end else []) ++ finalize_events.
Definition qha_results (x : QhaRunModel.input) : QhaRunModel.outcome QhaRunModel.results :=
  QhaRunModel.run K hplanck kboltzmann np_polyfit roots eos_parameters (fun _ _ => 0%R) (fun _ _ => 0%R) s x temperature pressure.
(** With the units which click accepts, only the acoustic branches (before the work
    starts) and the minimisation can raise. *)
Definition qha_run : CliModel.method (option string) :=
  match phonon_input y with
  | QhaReaderModel.Raises e => (run_start, CliModel.Raises e)
  | QhaReaderModel.Ok None => ([], CliModel.Ok None)
  | QhaReaderModel.Ok (Some x) =>
      match QhaRunModel.phonons_Hz K s x with
      | QhaRunModel.Raises e => (run_start, CliModel.Raises e)
      | QhaRunModel.Ok ph =>
          match qha_results x with
          | QhaRunModel.Raises e => (run_start ++ (if QhaRunModel.kieffer_on s then [] else work_start ph x), CliModel.Raises e)
          | QhaRunModel.Ok _ => (run_start ++ work_start ph x ++ work_end, CliModel.Ok None)
          end
      end
  end.
(** What was calculated; used only after a run which completed *)
Definition calculated : option QhaRunModel.results :=
  match phonon_input y with
  | QhaReaderModel.Ok (Some x) => match qha_results x with QhaRunModel.Ok r => Some r | QhaRunModel.Raises _ => None end
  | _ => None
  end.
Definition qha_report_results : CliModel.method unit :=
  match calculated with
  | Some r => match report_results K float_text s temperature pressure r with QhaRunModel.Ok ls => (say ls, CliModel.Ok tt) | QhaRunModel.Raises e => ([], CliModel.Raises e) end
  | None => ([], CliModel.Ok tt)
  end.
Definition qha_saved : string :=
  match calculated, QhaReaderModel.jobname y with
  | Some r, QhaReaderModel.Ok name => encode (qha_result_file s name temperature pressure r)
  | _, _ => ""
  end.
Definition qha_job : CliModel.job :=
  {| CliModel.report_input_data := qha_report; CliModel.run := qha_run; CliModel.report_results := qha_report_results; CliModel.saved := qha_saved;
     CliModel.exported := say ["Calculated data exported to " +++ out] |}.
Definition set_apart : bool :=
  (match static_data with QhaReaderModel.Ok None => true | _ => false end ||
   match phonon_input y with QhaReaderModel.Ok None => true | _ => false end ||
   (List.length temperature =? 0) || (List.length pressure =? 0))%bool.
End Job.
Variable special_case : qha_options -> QhaReaderModel.yaml -> CliModel.job.

Definition points (r : R * R * R) : list R := match set_range r with Some l => l | None => [] end.
(** 150-151: the two ranges *)
Definition qha_new (u : qha_options) : CliModel.method unit :=
  ([], match set_range (temperatures u), set_range (pressures u) with Some _, Some _ => CliModel.Ok tt | _, _ => CliModel.Raises "ZeroDivisionError" end).
(** 322-344 *)
Definition qha_read (u : qha_options) (filename out text : string) : CliModel.method (string + CliModel.job) :=
  let begin := [CliModel.Say ("Reading input file: " +++ filename); CliModel.Debug "Instantiate file reader"] in
  match QhaReaderModel.qha_read_input (yaml_load text) with
  | QhaReaderModel.Raises e => (begin, CliModel.Raises e)
  | QhaReaderModel.Ok (Some err, _) => (begin, CliModel.Ok (inl err))
  | QhaReaderModel.Ok (None, r) =>
      match r with
      | Some r => match QhaReaderModel.contents r with
        | Some y => (begin, CliModel.Ok (inr (let t := points (temperatures u) in let p := points (pressures u) in
                                              if set_apart u t p y then special_case u y else qha_job u t p out y)))
        | None => (begin, CliModel.Ok (inr no_input))
        end
      | None => (begin, CliModel.Ok (inr no_input))
      end
  end.
Definition qha_calculator (u : qha_options) (filename out : string) : CliModel.calculator :=
  {| CliModel.new := qha_new u; CliModel.read_input := qha_read u filename out |}.
(** cmd_qha.py:105-184 *)
Definition qha_main (u : qha_options) (filename : string) (outfile : option string) (silent debug : bool) (answer : CliModel.result bool) : CliModel.M unit :=
  let c := CliModel.qha_command (qha_print_settings u) in
  CliModel.main CitationsModel.qha_texts c filename outfile silent debug (qha_calculator u filename (CliModel.outpath c filename outfile)) answer.
End Calculator.
