(** The elastic calculator as the command uses it, from the text of the input
    file to the log and the result file.
    - /repo/quantas/soec/soec.py:94-115 (constructor), 162-189 (read_input),
      191-214 (report_input_data), 216-299 (run), 532-570 (export_hdf5)
    - /repo/quantas/soec/utils/soec_obj.py:78-102 (SOEC), 482-580 (SOECOrtho)
    - /repo/quantas/soec/commands/cmd_soec.py:87, 125-141 (settings)
    Parameters: numpy's inverse and eigenvalues, scipy's searches, the velocities
    of SOEC.phase_velocity, the line with the time, str of a float, and the bytes h5py makes of the stored data. Files
    with 'nan' among their numbers are left to a parameter. One event per printed
    line. Numbers are exact reals. *)
From Coq Require Import Reals String Ascii List Bool Arith.
From Verif Require Import Py DecimalModel FormatModel FormatProofs TableModel StoreModel SymmetryModel TensorModel SoecRunModel SoecReportModel SoecTableModel.
From Verif Require SoecIOModel CliModel CitationsModel.
Import ListNotations.
Open Scope string_scope.
Open Scope list_scope.
Open Scope nat_scope.

(** cmd_soec.py:125-141; '{:12}' pads 'pressure:' *)
Definition print_settings (punit : string) : string :=
  nl +++ "Calculator: Second-order elastic moduli analysis" +++ nl +++ nl +++ "Measurement units" +++ nl +++
  "-------------------------------------" +++ nl +++ " - pressure:    " +++ punit +++ nl.

(** symmetry.py:13-77: the keys *)
Definition system_name (s : system) : string :=
  match s with
  | Cubic => "cubic" | Hexagonal => "hexagonal" | TrigonalHigh => "trigonal_high" | TrigonalLow => "trigonal_low"
  | TetragonalHigh => "tetragonal_high" | TetragonalLow => "tetragonal_low" | Orthorhombic => "orthorhombic"
  | Monoclinic => "monoclinic" | Triclinic => "triclinic"
  end.

(** The methods of the object which is used: SOECOrtho (soec_obj.py:499-580) for an
    orthorhombic matrix, else SOEC. *)
Definition young_m (s : system) (S : mat6) (x : angles) : R :=
  match s with Orthorhombic => ortho_young (S_ijkl S) (ang x 0) (ang x 1) | _ => young_f S x end.
Definition compressibility_m (s : system) (S : mat6) (x : angles) : R :=
  match s with Orthorhombic => ortho_compressibility (S_ijkl S) (ang x 0) (ang x 1) | _ => compressibility_f S x end.
Definition shear_m (s : system) (S : mat6) (x : angles) : R :=
  match s with Orthorhombic => ortho_shear (S_ijkl S) (ang x 0) (ang x 1) (ang x 2) | _ => shear_f S x end.
Definition poisson_m (s : system) (S : mat6) (x : angles) : R :=
  match s with Orthorhombic => ortho_poisson (S_ijkl S) (ang x 0) (ang x 1) (ang x 2) | _ => poisson_f S x end.
(** The compliances those methods look at: the polar tables are computed from them
    (SoecCommandProps.methods_effective). *)
Definition prune (S : mat6) : mat6 := fun p q =>
  if (p <? 3) && (q <? 3) then S (Nat.min p q) (Nat.max p q) else if p =? q then S p p else 0%R.
Definition effective (s : system) (S : mat6) : mat6 := match s with Orthorhombic => prune S | _ => S end.

(** Six rows and columns of floats. *)
Definition numbers (m : SoecIOModel.fmat) : option mat6 :=
  if forallb (fun i => forallb (fun j => match m i j with Num _ => true | NaN => false end) (seq 0 6)) (seq 0 6)
  then Some (fun i j => if (i <? 6) && (j <? 6) then match m i j with Num x => x | NaN => 0%R end else 0%R)
  else None.

(** soec.py:301-357: printed around the computation of the polar tables (the
    progress bars go to the terminal only) *)
Definition polar_lines (density : R) : list string :=
  let plane p := ["     * along (" +++ p +++ ")"; "         a. Young's modulus"; "         b. Linear compressibility";
    "         c. Shear modulus"; "         d. Poisson's ratio"] ++ (if Rlt_dec 0 density then ["         e. Wave velocities"] else []) in
  " - Calculation of polar (2D) properties:" :: plane "xy" ++ plane "xz" ++ plane "yz".

Definition say : list string -> list CliModel.event := map CliModel.Say.
Definition hush (l : list string) : list CliModel.event := map CliModel.Debug l.

Section Calculator.
Variable inverse : mat6 -> option mat6.
Variable eigenvalues : mat6 -> list R.
Variable brute : (angles -> R) -> nat -> angles * R.
Variable powell : (R -> R) -> R.
Variable velocities : mat6 -> R -> angles -> list R.
Variables (time_line : string) (float_text : R -> string) (encode : h5 -> string).
Variable nan_case : SoecIOModel.data -> CliModel.method (string + CliModel.job).

Section Job.
Variables (punit : string) (s : settings) (out : string).
Variables (title : string) (sys : system) (density : R) (C S : mat6).
Definition wave (k : nat) (x : angles) : R := nth k (velocities C density x) 0%R.
(** soec_obj.py:466-475: three columns of SOEC.phase_velocity *)
Definition polar_wave (pl : plane) (i : nat) : list R :=
  velocities C density [fst (cut_angles pl nrad i); snd (cut_angles pl nrad i)].

(** 216-299. The last test leaves 'completed' False and 'error' None, which the
    command prints. *)
Definition soec_run : CliModel.method (option string) :=
  let eigv := eigenvalues C in
  let first := hush ["Start SOEC analysis"; " - Calculation of VRH average values"] ++
    (if Rlt_dec 0 density then hush [" - Calculation of VRH wave velocities"] else []) ++
    hush [" - Calculation stiffness eigenvalues"] ++ say (report_initial C S density eigv) in
  if gate eigv then
    (first ++ say ["SOEC matrix is not definite positive, crystal is mechanically unstable"; "No further analysis will be performed."], CliModel.Ok (Some "None"))
  else
    (first ++
     hush [" - Calculation Young modulus and Linear Compressibility variation"] ++
     say (report_single (vary brute (young_m sys S) 2) (vary brute (compressibility_m sys S) 2)) ++
     hush [" - Calculation shear modulus and Poisson ratio variation"] ++
     say (report_dual (vary brute (shear_m sys S) 3) (vary brute (poisson_m sys S) 3)) ++
     (if Rlt_dec 0 density then
        hush [" - Calculation wave velocities variation"] ++ say (report_seismic (vary brute (wave 2) 2) (vary brute (wave 0) 2) (vary brute (wave 1) 2))
      else []) ++
     (if polar s then say (polar_lines density) else []) ++
     say ([""; time_line] ++ report_plots s density),
     CliModel.Ok None).
(** 530-567; the tables of the polar cuts come from the methods of the object *)
Definition soec_stored : h5 :=
  {| info := Some info_text;
     datasets :=
       [("stiffness", {| values := matrix6 C; unit_of := punit |});
        ("compliance", {| values := matrix6 S; unit_of := "TPa^-1" |});
        ("averages", {| values := Mat (averages C S); unit_of := punit |});
        ("eigenvals", {| values := Vec (eigenvalues C); unit_of := punit |})] ++
       List.concat (map (plane_datasets powell polar_wave punit (polar s) density (effective sys S)) [XY; XZ; YZ]) |}.
Definition soec_job : CliModel.job :=
  {| CliModel.report_input_data := (say (report_input title (system_name sys) density (float_text density) C S), CliModel.Ok tt);
     CliModel.run := soec_run;
     CliModel.report_results := ([], CliModel.Ok tt);
     CliModel.saved := encode soec_stored;
     CliModel.exported := say [""; "Calculated data exported to " +++ out] |}.
End Job.

(** 94-115; without a pressure unit other than GPa *)
Definition soec_new (s : settings) : CliModel.method unit :=
  (hush ["SOEC calculator object instantiated"; "Input and output variables set"; if plotting s then "Plotting enabled" else "Plotting disabled"], CliModel.Ok tt).
(** 162-189. The reader starts from its class attribute (one reader per process). *)
Definition soec_read (punit : string) (s : settings) (filename out text : string) : CliModel.method (string + CliModel.job) :=
  let begin := say ["Reading input file: " +++ filename] ++ hush ["Instantiate file reader"] in
  match SoecIOModel.load (readlines text) SoecIOModel.class_data with
  | (_, SoecIOModel.Failed m) => (begin, CliModel.Ok (inl m))
  | (_, SoecIOModel.Raised e) => (begin, CliModel.Raises e)
  | (d, SoecIOModel.Completed) =>
    match SoecIOModel.stiffness d, SoecIOModel.density d with
    | Some m, Num rho =>
      match numbers m with
      | None => let r := nan_case d in (begin ++ fst r, snd r)
      | Some C =>
        let begin := begin ++ hush ["Input file correctly read"; "Job name set"] in
        match inverse C with
        | None => (begin, CliModel.Raises "ValueError")
        | Some Sm =>
          let begin := begin ++ hush ["SOEC object instantiated"] in
          match check_symmetry C with
          | None => (begin, CliModel.Raises "UnboundLocalError")
          | Some sys =>
            (begin ++ hush ["Crystal system: " +++ system_name sys] ++
             match sys with Orthorhombic => hush ["Switching to orthorombic SOEC object"] | _ => [] end,
             CliModel.Ok (inr (soec_job punit s out (SoecIOModel.job d) sys rho C Sm)))
          end
        end
      end
    | _, _ => let r := nan_case d in (begin ++ fst r, snd r)
    end
  end.
Definition soec_calculator (punit : string) (s : settings) (filename out : string) : CliModel.calculator :=
  {| CliModel.new := soec_new s; CliModel.read_input := soec_read punit s filename out |}.
(** cmd_soec.py:54-122 *)
Definition soec_main (punit : string) (polar plotting matplotlib : bool) (filename : string) (outfile : option string)
    (silent debug : bool) (answer : CliModel.result bool) : CliModel.M unit :=
  let c := CliModel.soec_command (print_settings punit) in
  let out := CliModel.outpath c filename outfile in
  let s := {| SoecRunModel.polar := polar; SoecRunModel.plotting := plotting; SoecRunModel.matplotlib := matplotlib; SoecRunModel.basename := CliModel.root out |} in
  CliModel.main CitationsModel.soec_texts c filename outfile silent debug (soec_calculator punit s filename out) answer.
End Calculator.
