(** What the (quasi-)harmonic calculators store, and the file names of the
    exporters.
    - /repo/quantas/qha/qha.py:1229-1298, /repo/quantas/harmonic/harmonic.py:296-336
    - /repo/quantas/qha/utils/export.py:66-97, harmonic/utils/export.py (same)
    An HDF5 file keeps for each dataset an array and its 'unit' attribute; the
    'info' text is shortened to its first line, 'desc' attributes are left out
    (the exporters do not read them). *)
From Coq Require Import Reals String Ascii List Bool Arith.
From Verif Require Import Py ThermoModel FormatProofs TableModel QhaRunModel.
Import ListNotations.
Open Scope string_scope.
Open Scope list_scope.
Open Scope nat_scope.

Definition array_of (n m : nat) (f : mat) : array := Mat (map (fun i => map (f i) (seq 0 m)) (seq 0 n)).
Definition info_text : string := "This file was created with Quantas.".
(** qha.py:1283-1294 *)
Definition qha_unit (s : settings) (prop : string) : string :=
  if (String.eqb prop "Cv" || String.eqb prop "S")%bool then "m" +++ eunit s
  else if String.eqb prop "VT" then vunit s
  else if (String.eqb prop "KT" || String.eqb prop "KS")%bool then punit s
  else if (String.eqb prop "Kp" || String.eqb prop "gruneisen")%bool then ""
  else if String.eqb prop "alphaV" then "K^-1"
  else eunit s.
(** self.results[prop], in the order of qha.py:1253-1270 *)
Definition qha_properties (r : results) : list (string * mat) :=
  [("Uzp", Uzp r); ("Uth", Uth r); ("Utot", Utot r); ("S", Ent r); ("Fvib", Fvib r); ("F", F r); ("Cv", Cv r); ("VT", VT r);
   ("Cp", Cp r); ("Cp-Cv", CpCv r); ("KT", KT r); ("KS", KS r); ("Kp", Kp r); ("H", H r); ("G", G r); ("alphaV", alphaV r);
   ("gruneisen", gruneisen r)].
(** qha.py:1272-1294 *)
Definition qha_file (s : settings) (temperature pressure : list R) (r : results) : h5 :=
  {| info := Some info_text;
     datasets :=
       ("T", {| values := Vec temperature; unit_of := tunit s |}) ::
       ("P", {| values := Vec pressure; unit_of := punit s |}) ::
       map (fun pm => (fst pm, {| values := array_of (List.length temperature) (List.length pressure) (snd pm); unit_of := qha_unit s (fst pm) |}))
         (qha_properties r) |}.
(** harmonic.py:331-334 *)
Definition ha_unit (s : settings) (prop : string) : string :=
  if (String.eqb prop "Cv" || String.eqb prop "S")%bool then "m" +++ eunit s else eunit s.
(** harmonic.py:313-334; the zero-point energy has one row *)
Definition ha_file (s : settings) (x : input) (temperature : list R) (r : ha_results) : h5 :=
  let nt := List.length temperature in
  let stored k a := (k, {| values := a; unit_of := ha_unit s k |}) in
  {| info := Some info_text;
     datasets :=
       [("V", {| values := Vec (map (volume x) (seq 0 (nvol x))); unit_of := vunit s |});
        ("T", {| values := Vec temperature; unit_of := tunit s |});
        ("U0", {| values := Vec (map (static_energy x) (seq 0 (nvol x))); unit_of := eunit s |});
        stored "Uzp" (array_of 1 (nvol x) (fun _ => ha_Uzp r));
        stored "Uth" (array_of nt (nvol x) (ha_Uth r));
        stored "Utot" (array_of nt (nvol x) (ha_Utot r));
        stored "S" (array_of nt (nvol x) (ha_S r));
        stored "Fvib" (array_of nt (nvol x) (ha_Fvib r));
        stored "F" (array_of nt (nvol x) (ha_F r));
        stored "Cv" (array_of nt (nvol x) (ha_Cv r))] |}.

(** export.py:74-81: the file written; [existing] tells which files exist,
    [overwrite] is the answer to the question, [typed] the name then entered. *)
Definition default_name (basename selection : string) : string := basename +++ "_" +++ selection +++ ".dat".
Definition destination (existing : string -> bool) (basename selection : string) (overwrite : bool) (typed : string) : string :=
  let outfile := default_name basename selection in
  if existing outfile then if overwrite then outfile else typed else outfile.
