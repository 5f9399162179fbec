(** Python's format specifications used in the printed reports
    (quantas/soec/soec.py:42-53, quantas/qha/qha.py, quantas/eosfit/eosfit.py).
    [{: ^w...}] is a centred field (the blank is the filling), [{: w...}] a right
    aligned number with a blank in place of a plus sign. *)
From Coq Require Import Reals String Ascii List Bool Arith ZArith.
From Flocq Require Import Core.
From Verif Require Import Py DecimalModel FormatModel FormatProofs TableModel.
Import ListNotations.
Open Scope string_scope.
Open Scope list_scope.
Open Scope nat_scope.

(** A printed float: a finite number, inf or nan *)
Inductive shown := Fin (x : R) | Inf | Nan.
(** '{:.kf}' *)
Definition plain (k : nat) (v : shown) : string := match v with Fin x => fix_text k x | Inf => "inf" | Nan => "nan" end.
(** '{: .kf}' *)
Definition signed (k : nat) (v : shown) : string :=
  match v with Fin x => minus_or " " (Rlt_bool x 0) +++ print_fixed k (scaled k x) | Inf => " inf" | Nan => " nan" end.
(** '{: ^w.kf}' *)
Definition centred (w k : nat) (v : shown) : string := center w (plain k v).
(** '{: w.kf}' *)
Definition right (w k : nat) (v : shown) : string := pad_left w (signed k v).
(** '{:w.kf}' *)
Definition right_plain (w k : nat) (v : shown) : string := pad_left w (plain k v).
(** '{:.ke}', '{: ^w.ke}' and '{: w.ke}' *)
Definition small_e (k : nat) (x : R) : string := print_fixed k (fst (sci_parts k x)) +++ "e" +++ exp_text (snd (sci_parts k x)).
Definition centred_e (w k : nat) (x : R) : string := center w (minus_or "" (Rlt_bool x 0) +++ small_e k x).
Definition right_e (w k : nat) (x : R) : string := pad_left w (minus_or " " (Rlt_bool x 0) +++ small_e k x).
(** '{:-^w}' of the empty text *)
Definition rule (w : nat) : string := fill "-"%char w.
(** np.sqrt *)
Definition square_root (x : R) : shown := if Rle_dec 0 x then Fin (sqrt x) else Nan.
