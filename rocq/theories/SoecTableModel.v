(** What an elastic run stores and its export to text tables.
    - /repo/quantas/soec/soec.py:118-152 (default results), 301-379 (polar cuts), 530-567 (export_hdf5)
    - /repo/quantas/soec/utils/export.py, /repo/quantas/soec/utils/table.py
    An HDF5 file keeps for each dataset an array and its 'unit' attribute. The
    'info' text is shortened to its first line. Numbers are exact reals. *)
From Coq Require Import Reals String Ascii List Bool Arith.
From Verif Require Import Py DecimalModel FormatModel FormatProofs TableModel StoreModel SymmetryModel TensorModel SoecRunModel.
Import ListNotations.
Open Scope string_scope.
Open Scope list_scope.
Open Scope nat_scope.

(** * The table *)
(** table.py:15-17 *)
Definition dw : nat := 10.
Definition vw : nat := 15.
(** 23-26 *)
Definition soec_space (n : nat) : nat * nat := (n * vw + dw, n * vw).
(** 33-34 *)
Definition soec_header (dataw : nat) (tag1 tag2 : string) : string := " " +++ center dw tag1 +++ " " +++ center dataw tag2 +++ " ".
(** 65-91: description, and the quantities shown for each direction (the same
    for the three of them) *)
Record soec_kind := { sdesc : string; quantities : list string }.
Definition soec_types (name : string) : option soec_kind :=
  if String.eqb name "E" then Some {| sdesc := "Young's modulus"; quantities := [""] |}
  else if String.eqb name "LC" then Some {| sdesc := "Linear compressibility"; quantities := ["positive"; "negative"] |}
  else if String.eqb name "G" then Some {| sdesc := "Shear modulus"; quantities := ["minimum"; "maximum"] |}
  else if String.eqb name "Nu" then Some {| sdesc := "Poisson's ratio"; quantities := ["negative"; "positive"; "measurement"] |}
  else if String.eqb name "waves" then Some {| sdesc := "Seismic wave velocities"; quantities := ["v_s1"; "vs_2"; "v_l"] |}
  else None.
Definition directions : list string := ["(xy)"; "(xz)"; "(yz)"].
(** 126-129: one row *)
Definition soec_cell (x : R) : string := center vw (fix_text 4 x).
Definition soec_row (degree : R) (row : list R) : string := center dw (fix_text 1 degree) +++ concat_map soec_cell row.
(** 126: degrees[i] for every row of the values *)
Fixpoint soec_rows (degrees : list R) (value : list (list R)) (k : written) : written :=
  match value with
  | [] => k
  | row :: value => match degrees with
                    | [] => ("", Raised "IndexError")
                    | d :: degrees => put (soec_row d row +++ nl) (soec_rows degrees value k)
                    end
  end.
(** 97-132; [n] is value.shape[1] *)
Definition soec_write (degrees : list R) (n : nat) (value : list (list R)) (name unit : string) : written :=
  let (totw, dataw) := soec_space n in
  put (file_header +++ nl +++ nl)
  (match soec_types name with
   | None => ("", Raised "KeyError")
   | Some k =>
     put (sdesc k +++ nl +++ unit_line true unit +++ nl +++ nl +++ separator totw "+" "-" +++ nl +++
          soec_header dataw "Degrees" (sdesc k) +++ nl +++
          (center dw "" +++ concat_map (center (n / 3 * vw)) directions) +++ nl +++
          (center dw "" +++ concat_map (fun d => concat_map (center vw) (quantities k)) directions) +++ nl +++
          separator totw "+" "=" +++ nl)
     (soec_rows degrees value (separator totw "+" "=", Done))
   end).

(** * What is stored *)
(** soec.py:118-152 and 359-379: the tables of one plane; [None]: no polar run,
    the default arrays with one row of zeros are stored. *)
Definition zeros (n : nat) : list (list R) := [repeat 0%R n].
Section Stored.
Variable powell : (R -> R) -> R.
(** SOEC.polar_waves: three velocities of each direction *)
Variable waves : plane -> nat -> list R.
Definition plane_tables (polar_run : bool) (density : R) (S : mat6) (pl : plane) : list (string * list (list R)) :=
  if polar_run then
    [("E", table (row_E S pl nrad)); ("LC", table (row_LC S pl nrad)); ("G", table (row_G powell S pl nrad)); ("Nu", table (row_Nu powell S pl nrad))] ++
    (if Rlt_dec 0 density then [("waves", table (fun i => SoecRunModel.degrees (linspace_2pi nrad i) :: waves pl i))] else [])
  else [("E", zeros 2); ("LC", zeros 3); ("G", zeros 3); ("Nu", zeros 4); ("waves", zeros 4)].
(** 554-564 *)
Definition polar_unit (punit var : string) : string :=
  if mem var ["E"; "G"] then punit else if String.eqb var "LC" then "TPa^-1" else if String.eqb var "waves" then "km s^-1" else "".
Definition plane_name (pl : plane) : string := match pl with XY => "xy" | XZ => "xz" | YZ => "yz" end.
Definition plane_datasets (punit : string) (polar_run : bool) (density : R) (S : mat6) (pl : plane) : list (string * dataset) :=
  map (fun vt => ("polar_" +++ fst vt +++ "_" +++ plane_name pl, {| values := Mat (snd vt); unit_of := polar_unit punit (fst vt) |}))
    (plane_tables polar_run density S pl).
Definition matrix6 (M : mat6) : array := Mat (map (fun i => map (M i) (seq 0 6)) (seq 0 6)).
(** 530-567; [C] is the stiffness, [S] the compliance of the SOEC object *)
Definition soec_file (punit : string) (polar_run : bool) (density : R) (C S : mat6) (avgs : list (list R)) (eigv : list R) : h5 :=
  {| info := Some info_text;
     datasets :=
       [("stiffness", {| values := matrix6 C; unit_of := punit |});
        ("compliance", {| values := matrix6 S; unit_of := "TPa^-1" |});
        ("averages", {| values := Mat avgs; unit_of := punit |});
        ("eigenvals", {| values := Vec eigv; unit_of := punit |})] ++
       plane_datasets punit polar_run density S XY ++ plane_datasets punit polar_run density S XZ ++ plane_datasets punit polar_run density S YZ |}.
End Stored.

(** * The exporter *)
(** h5py iterates over the names of a file in their alphabetic (byte) order. *)
Fixpoint insert_name {A} (kd : string * A) (l : list (string * A)) : list (string * A) :=
  match l with
  | [] => [kd]
  | kd' :: l' => if String.leb (fst kd) (fst kd') then kd :: l else kd' :: insert_name kd l'
  end.
Definition by_name {A} (l : list (string * A)) : list (string * A) := fold_right insert_name [] l.
(** sub in s *)
Fixpoint contains (sub s : string) : bool :=
  if String.prefix sub s then true else match s with EmptyString => false | String _ s => contains sub s end.
(** A Python dictionary: a key set again keeps its place. *)
Fixpoint dict_set {A} (k : string) (a : A) (l : list (string * A)) : list (string * A) :=
  match l with
  | [] => [(k, a)]
  | (k', a') :: l => if String.eqb k k' then (k, a) :: l else (k', a') :: dict_set k a l
  end.
(** export.py:35-64. data is a dictionary of the class, shared by all exporters. *)
Definition soec_load (f : h5) (data : list (string * dataset)) : list (string * dataset) * exporter :=
  match info f with
  | None => (data, {| keys := []; error := Some "This does not appear to be a Quantas output file" |})
  | Some _ =>
    match find "stiffness" (datasets f) with
    | None => (data, {| keys := []; error := Some "This does not appear to be a Quantas SOEC output file" |})
    | Some _ =>
      let polar := filter (fun kd => contains "polar_" (fst kd)) (by_name (datasets f)) in
      (fold_left (fun l kd => dict_set (fst kd) (snd kd) l) polar data,
       {| keys := ["E"; "LC"; "G"; "Nu"] ++ (if existsb (fun kd => contains "waves" (fst kd)) polar then ["waves"] else []); error := None |})
    end
  end.
(** export.py:74-86: degrees from the first matching dataset, the other columns
    side by side (np.hstack needs equal numbers of rows). A polar dataset is a
    matrix; its columns are counted on its first row. *)
Definition matrix_of (a : array) : list (list R) := match a with Mat m => m | Vec _ => [] end.
Definition columns (m : list (list R)) : nat := match m with [] => 0 | r :: _ => List.length r - 1 end.
Fixpoint hstack (m : list (list R)) (n : nat) (l : list dataset) : option (list (list R) * nat) :=
  match l with
  | [] => Some (m, n)
  | d :: l =>
    let m' := matrix_of (values d) in
    if List.length m =? List.length m' then hstack (map (fun p => fst p ++ tl (snd p)) (combine m m')) (n + columns m') l else None
  end.
(** export.py:66-96, one selection: the exception raised before the file is
    opened, or what is written into the (emptied) file. *)
Inductive exported := Unopened (e : string) | Opened (w : written).
Definition soec_export (data : list (string * dataset)) (selection : string) : exported :=
  match map snd (filter (fun kd => contains selection (fst kd)) data) with
  | [] => Unopened "UnboundLocalError"
  | d :: l =>
    let m := matrix_of (values d) in
    match hstack (map (@tl R) m) (columns m) l with
    | None => Unopened "ValueError"
    | Some (value, n) => Opened (soec_write (map (fun r => hd 0%R r) m) n value selection (unit_of d))
    end
  end.
