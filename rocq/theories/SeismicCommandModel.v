(** The seismic calculator as the command uses it, from the text of the input
    file to the log and the result file, without plots.
    - /repo/quantas/seismic/seismic.py:72-120 (constructor), 130-156 (read_input),
      162-179 (report_input_data), 181-257 (run), 259-298 (export_hdf5)
    - /repo/quantas/seismic/commands/cmd_seismic.py:40-43 (options), 89-91, 157-192 (settings)
    Parameters: numpy's inverse, eigh and pinv, the line with the time, str of a
    float, and the bytes h5py makes of the stored data. Files with 'nan' among
    their numbers are left to a parameter. One event per printed line; the progress
    bar goes to the terminal only and is left out. Numbers are exact reals; where
    numpy divides by zero or takes the root of a negative number the model is that
    of SeismicModel. *)
From Coq Require Import Reals String Ascii List Bool Arith ZArith.
From Verif Require Import Py DecimalModel FormatModel FormatProofs TableModel SymmetryModel TensorModel ReportModel SoecReportModel.
From Verif Require SoecIOModel CliModel CitationsModel QhaRunModel SeismicModel SeismicTableModel SoecCommandModel.
Import ListNotations.
Open Scope string_scope.
Open Scope list_scope.
Open Scope nat_scope.

(** cmd_seismic.py:89-91: the number of azimuths of a run *)
Definition azimuths (ntheta nphi : Z) : Z := if (ntheta =? 180)%Z then nphi else if (nphi =? 720)%Z then (4 * ntheta)%Z else nphi.
(** cmd_seismic.py:157-192 without plots; '{:12}' pads the names *)
Definition print_settings (ntheta nphi : Z) (punit : string) : string :=
  nl +++ "Calculator: wave velocities from Christoffel's equation" +++ nl +++ nl +++ "Number of angular points" +++ nl +++
  "-------------------------------------" +++ nl +++ " - ntheta:      " +++ int_text ntheta +++ nl +++ " - nphi:        " +++ int_text nphi +++ nl +++
  nl +++ "Measurement units" +++ nl +++ "-------------------------------------" +++ nl +++ " - pressure:    " +++ punit +++ nl +++
  nl +++ "Plotting" +++ nl +++ "-------------------------------------" +++ nl +++ " - requested:   False" +++ nl.

(** seismic.py:162-179 *)
Definition report_input (title density_text : string) (C S : mat6) : list string :=
  ["Analysis of the sound velocities in " +++ title; ""; "Density: " +++ density_text +++ " kg m^-3"; ""; "Stiffness matrix (values in GPa)"] ++
  map (fun i => six (fun x => right 10 4 (Fin x)) (C i)) (seq 0 6) ++
  [""; "Compliance tensor (values in TPa^-1)"] ++
  map (fun i => six (fun x => right_plain 9 6 (Fin x)) (fun j => (S i j * 1000)%R)) (seq 0 6) ++ [""].

Definition start_line : string := "Start calculation of velocities by solving Christoffel's equation".
(** 205-252: the debug lines of the two loops *)
Definition point_lines : list string :=
  ["   - phase velocity (done)"; "   - polarization (done)"; "   - group velocity (done)"; "   - group absolute (done)";
   "   - powerflow angle (done)"; "   - enhancement factor (done)"; "   - storing the results (done)"].
Definition theta_line (theta : nat) (ntheta : Z) : string := "Calculation of point " +++ int_text (Z.of_nat theta) +++ "/" +++ int_text ntheta +++ ":".
Definition loop_lines (ntheta nphi : Z) : list string :=
  flat_map (fun t => theta_line t ntheta :: flat_map (fun _ => point_lines) (seq 0 (Z.to_nat nphi)) ++ ["   - moving to the next point"])
    (seq 0 (Z.to_nat ntheta)).

Section Calculator.
Variable inverse : mat6 -> option mat6.
Variable eigh : SeismicModel.mat3 -> (nat -> R) * SeismicModel.mat3.
Variables pinv inv : SeismicModel.mat3 -> SeismicModel.mat3.
Variables (time_line : string) (float_text : R -> string) (encode : h5 -> string).
Variable nan_case : SoecIOModel.data -> CliModel.method (string + CliModel.job).

Section Job.
Variables (ntheta nphi : Z) (punit out title : string) (density : R) (C S : mat6).
Definition mode (i : nat) : QhaRunModel.outcome (list (list R)) :=
  SeismicTableModel.mode_rows eigh pinv inv C S density (Z.to_nat ntheta) (Z.to_nat nphi) i.
(** The three matrices, filled together node by node; an exception at a node stops
    the run. *)
Definition tables : QhaRunModel.outcome (list (list R) * list (list R) * list (list R)) :=
  QhaRunModel.bind (mode 0) (fun slow => QhaRunModel.bind (mode 1) (fun fast => QhaRunModel.bind (mode 2) (fun prim => QhaRunModel.Ok (slow, fast, prim)))).
(** 181-257; np.linspace refuses a negative number. The only exception of the loops
    is a division by zero at their first node. *)
Definition seismic_run : CliModel.method (option string) :=
  let first := SoecCommandModel.hush ["Start Seismic analysis"; "Calculate isotropic velocities"] ++ SoecCommandModel.say [start_line] in
  if (ntheta <? 0)%Z then (first, CliModel.Raises "ValueError")
  else match tables with
  | QhaRunModel.Raises e => (first ++ SoecCommandModel.hush [theta_line 0 ntheta], CliModel.Raises e)
  | QhaRunModel.Ok _ =>
    (first ++ SoecCommandModel.hush (loop_lines ntheta nphi) ++ SoecCommandModel.say [""; time_line] ++ SoecCommandModel.hush ["Run completed. Exiting main routine."],
     CliModel.Ok None)
  end.
(** 259-298; reached after a run which completed *)
Definition seismic_stored : h5 :=
  match tables with
  | QhaRunModel.Ok (slow, fast, prim) => SeismicTableModel.seismic_file punit slow fast prim
  | QhaRunModel.Raises _ => SeismicTableModel.seismic_file punit [] [] []
  end.
Definition seismic_job : CliModel.job :=
  {| CliModel.report_input_data := (SoecCommandModel.say (report_input title (float_text density) C S), CliModel.Ok tt);
     CliModel.run := seismic_run;
     CliModel.report_results := ([], CliModel.Ok tt);
     CliModel.saved := encode seismic_stored;
     CliModel.exported := SoecCommandModel.say [""; "Calculated data exported to " +++ out] |}.
End Job.

(** 72-120: np.zeros refuses a negative number of rows *)
Definition seismic_new (ntheta nphi : Z) : CliModel.method unit :=
  if (ntheta * nphi <? 0)%Z then (SoecCommandModel.hush ["Seismic calculator object instantiated"], CliModel.Raises "ValueError")
  else (SoecCommandModel.hush ["Seismic calculator object instantiated"; "Input and output variables set"; "Plotting disabled"], CliModel.Ok tt).
(** 130-156; seismic_obj.py:121-135. The reader starts from its class attribute (one
    reader per process). *)
Definition seismic_read (ntheta nphi : Z) (punit filename out text : string) : CliModel.method (string + CliModel.job) :=
  let begin := SoecCommandModel.say ["Reading input file: " +++ filename] ++ SoecCommandModel.hush ["Instantiate file reader"] in
  match SoecIOModel.load (readlines text) SoecIOModel.class_data with
  | (_, SoecIOModel.Failed m) => (begin, CliModel.Ok (inl m))
  | (_, SoecIOModel.Raised e) => (begin, CliModel.Raises e)
  | (d, SoecIOModel.Completed) =>
    let begin := begin ++ SoecCommandModel.hush ["Input file correctly read"] in
    if SeismicTableModel.is_zero (SoecIOModel.density d) then (begin, CliModel.Ok (inl SeismicTableModel.no_density))
    else match SoecIOModel.stiffness d, SoecIOModel.density d with
    | Some m, Num rho =>
      match SoecCommandModel.numbers m with
      | None => let r := nan_case d in (begin ++ fst r, snd r)
      | Some C =>
        let begin := begin ++ SoecCommandModel.hush ["Job name set"] in
        match inverse C with
        | None => (begin, CliModel.Raises "ValueError")
        | Some Sm => (begin ++ SoecCommandModel.hush ["Seismic object instantiated"],
                      CliModel.Ok (inr (seismic_job ntheta nphi punit out (SoecIOModel.job d) rho C Sm)))
        end
      end
    | _, _ => let r := nan_case d in (begin ++ fst r, snd r)
    end
  end.
Definition seismic_calculator (ntheta nphi : Z) (punit filename out : string) : CliModel.calculator :=
  {| CliModel.new := seismic_new ntheta nphi; CliModel.read_input := seismic_read ntheta nphi punit filename out |}.
(** cmd_seismic.py:65-154 without --plot and --only-plot; the number of azimuths is
    settled before anything is printed of it. *)
Definition seismic_main (ntheta nphi : Z) (punit filename : string) (outfile : option string)
    (silent debug : bool) (answer : CliModel.result bool) : CliModel.M unit :=
  let nphi := azimuths ntheta nphi in
  let c := CliModel.seismic_command (print_settings ntheta nphi punit) in
  let out := CliModel.outpath c filename outfile in
  CliModel.main CitationsModel.seismic_texts c filename outfile silent debug (seismic_calculator ntheta nphi punit filename out) answer.
End Calculator.
