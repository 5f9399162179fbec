(** What a seismic run reads, stores and its export to text tables.
    - /repo/quantas/seismic/seismic.py:130-156 (read_input), 181-257 (run), 259-298 (export_hdf5)
    - /repo/quantas/seismic/utils/export.py
    Numbers are exact reals. *)
From Coq Require Import Reals String Ascii List Bool Arith.
From Verif Require Import Py DecimalModel SoecIOModel FormatModel FormatProofs YamlSpec SymmetryModel TensorModel QhaRunModel SeismicModel TableModel SoecTableModel.
Import ListNotations.
Open Scope string_scope.
Open Scope list_scope.
Open Scope nat_scope.

(** * Input *)
(** seismic.py:143-155; a NaN density is not equal to zero. *)
Definition no_density : string := "Density not provided, calculation aborted".
Definition is_zero (x : fl) : bool := match x with Num r => if Req_EM_T r 0 then true else false | NaN => false end.
Inductive input_result := InputError (message : string) | InputRaised (exception : string) | Accepted (d : data).
Definition read_input (lines : list string) (class : data) : input_result :=
  match SoecIOModel.load lines class with
  | (d, Completed) => if is_zero (density d) then InputError no_density else Accepted d
  | (d, Failed m) => InputError m
  | (d, SoecIOModel.Raised e) => InputRaised e
  end.

(** * The calculation *)
Section Run.
Variable eigh : mat3 -> (nat -> R) * mat3.
Variables (pinv inv : mat3 -> mat3).
Variables (C S : mat6) (rho : R).
Fixpoint all_ok {A B} (f : A -> QhaRunModel.outcome B) (l : list A) : QhaRunModel.outcome (list B) :=
  match l with
  | [] => QhaRunModel.Ok []
  | a :: l => QhaRunModel.bind (f a) (fun b => QhaRunModel.bind (all_ok f l) (fun bs => QhaRunModel.Ok (b :: bs)))
  end.
(** seismic.py:193-257: the matrix of mode i (storing[i]), one row per node *)
Definition mode_rows (ntheta nphi i : nat) : QhaRunModel.outcome (list (list R)) :=
  QhaRunModel.bind (sphere ntheta nphi) (all_ok (fun '(_, (t, p)) => row eigh pinv inv C S rho (spherical_direction C rho t p) i)).
End Run.

(** * What is stored *)
(** seismic.py:260-285 *)
Definition seismic_info (punit : string) : string :=
  join_lines [""; "This file was created with Quantas."; "";
   "It contains the results of the Christoffel equation appliet to the second-order";
   "elastic constants (SOECs, matrix in Voigt's notation), performed with the";
   "following settings:";
   "  - pressure scale:    " +++ punit;
   "  - density: kg m^-3";
   "";
   "This file contains three datasets:";
   "  - slow secondary data (ssecondary)";
   "  - fast secondary data (fsecondary)";
   "  - primary data (primary)";
   "";
   "Each dataset contains the following results (measurement unit):";
   "  - Column 1     : Theta angle (rad)";
   "  - Column 2     : Phi angle (rad)";
   "  - Column 3     : Phase velocity (km s^-1)";
   "  - Column 4     : Relative phase velocity (%)";
   "  - Columns 5-7  : Phase polarization (x,y,z)";
   "  - Column 8     : Group velocity (km s^-1)";
   "  - Column 9     : Relative group velocity (%)";
   "  - Columns 10-12: x, y, and z coordinates of the ray surface";
   "  - Column 13    : Powerflow angle (degree)";
   "  - Column 14    : Enhancement factor (log_10A)";
   ""].
(** 286-294; the arguments are the matrices of results['slow_secondary'],
    ['fast_secondary'] and ['primary'] *)
Definition seismic_file (punit : string) (slow fast prim : list (list R)) : h5 :=
  {| info := Some (seismic_info punit);
     datasets := [("ssecondary", {| values := Mat slow; unit_of := "" |});
                  ("fsecondary", {| values := Mat fast; unit_of := "" |});
                  ("primary", {| values := Mat prim; unit_of := "" |})] |}.

(** * The exporter *)
(** export.py:35-59; data is a dictionary of the class *)
Record sexporter := { sinfo : string; skeys : list string; serror : option string }.
Definition seismic_load (f : h5) (data : list (string * dataset)) : list (string * dataset) * sexporter :=
  match info f with
  | None => (data, {| sinfo := ""; skeys := []; serror := Some "This does not appear to be a Quantas output file" |})
  | Some i =>
    match find "primary" (datasets f) with
    | None => (data, {| sinfo := i; skeys := []; serror := Some "This does not appear to be a Quantas seismic output file" |})
    | Some _ => (fold_left (fun l kd => dict_set (fst kd) (snd kd) l) (by_name (datasets f)) data,
                 {| sinfo := i; skeys := ["ssecondary"; "fsecondary"; "primary"]; serror := None |})
    end
  end.
(** str.splitlines for a text whose only line breaks are newlines *)
Definition splitlines (s : string) : list string :=
  let l := lines s in if String.eqb (last l "") "" then removelast l else l.
Fixpoint set_nth (i : nat) (x : string) (l : list string) : option (list string) :=
  match l with
  | [] => None
  | a :: l => match i with 0 => Some (x :: l) | S i => option_map (cons a) (set_nth i x l) end
  end.
(** 83-92; new_info[9] = ... raises on a short text *)
Definition seismic_header (i selection : string) : option string :=
  option_map (fun l => concat_map (fun line => line +++ nl) (filter (fun line => negb (contains " data " line && negb (contains selection line))) l))
    (set_nth 9 "This file contains the following dataset:" (splitlines i)).
(** 21-22, 99-101; str.format raises on fewer than 14 values and ignores more *)
Definition formats : list (nat * nat) :=
  [(8, 6); (8, 6); (9, 5); (8, 3); (8, 4); (8, 4); (8, 4); (9, 5); (8, 3); (9, 5); (9, 5); (9, 5); (9, 4); (9, 4)].
Fixpoint join_fields (fs : list (nat * nat)) (row : list R) : option string :=
  match fs, row with
  | [], _ => Some ""
  | _, [] => None
  | [(w, k)], x :: _ => Some (fmt_f w k x)
  | (w, k) :: fs, x :: row => option_map (fun s => fmt_f w k x +++ " " +++ s) (join_fields fs row)
  end.
Fixpoint seismic_rows (m : list (list R)) : written :=
  match m with
  | [] => ("", Done)
  | r :: m => match join_fields formats r with None => ("", Raised "IndexError") | Some s => put (s +++ nl) (seismic_rows m) end
  end.
(** 72-75: the last dataset whose name contains the selection *)
Definition last_matching (selection : string) (data : list (string * dataset)) : option dataset :=
  fold_left (fun r kd => if contains selection (fst kd) then Some (snd kd) else r) data None.
(** 61-103, the first selection of an exporter *)
Definition seismic_export (i : string) (data : list (string * dataset)) (selection : string) : exported :=
  match last_matching selection data with
  | None => Unopened "UnboundLocalError"
  | Some d =>
    match values d with
    | Vec _ => Unopened "ValueError"
    | Mat m => match seismic_header i selection with
               | None => Unopened "IndexError"
               | Some h => Opened (put (h +++ nl +++ nl) (seismic_rows m))
               end
    end
  end.
