(** Model of quantas/utils/physics/thermodynamics.pyx.
    Arrays are functions of their indices with explicit sizes; each kernel is a
    [prange] over rows whose iterations store into their own row (ParModel). *)
From Coq Require Import Reals List.
From Verif Require Import ParModel StatMechModel.
Import ListNotations.
Open Scope R_scope.

Definition mat := nat -> nat -> R.

Section WithConstants.
(** thermodynamics.pyx:17 *)
Variable NA : R.

(** One [prange] iteration storing [val i j] in result[i,j] for every j. *)
Definition store_row (m : nat) (val : nat -> nat -> R) (i : nat) : list (op R) :=
  map (fun j => SetTo i j (val i j)) (seq 0 m).
Definition kernel (n m : nat) (val : nat -> nat -> R) : mat :=
  exec Rplus (flat_map (store_row m val) (seq 0 n)) zeros.

(** :53-55 *)
Definition enthalpy_entry (V : mat) (p : nat -> R) (U : mat) (i j : nat) : R :=
  U i j + p j * V i j * NA / 1000.
(** :21-57 *)
Definition enthalpy (n m : nat) (V : mat) (p : nat -> R) (U : mat) : mat :=
  kernel n m (enthalpy_entry V p U).

(** :93-95 *)
Definition gibbs_entry (V : mat) (p : nat -> R) (F : mat) (i j : nat) : R :=
  F i j + p j * V i j * NA / 1000.
(** :61-97 *)
Definition gibbs (n m : nat) (V : mat) (p : nat -> R) (F : mat) : mat :=
  kernel n m (gibbs_entry V p F).

(** :146-154 *)
Definition KS_entry (T : nat -> R) (V KT alpha Cv : mat) (factor : R) (i j : nat) : R :=
  if (Req_b (T i) 0 || Req_b (Cv i j) 0)%bool then KT i j
  else KT i j + (alpha i j * alpha i j * (factor * KT i j * factor * KT i j)
                 * V i j * T i / (Cv i j / NA)) / factor.
(** :103-155 *)
Definition adiabatic_bulk_modulus (n m : nat) (T : nat -> R) (V KT alpha Cv : mat) (factor : R) : mat :=
  kernel n m (KS_entry T V KT alpha Cv factor).

(** :198-205 *)
Definition gamma_entry (V KT alpha Cv : mat) (i j : nat) : R :=
  if Req_b (Cv i j) 0 then 0
  else V i j * KT i j * alpha i j / (Cv i j / NA).
(** :161-206 *)
Definition gruneisen_parameter (n m : nat) (V KT alpha Cv : mat) : mat :=
  kernel n m (gamma_entry V KT alpha Cv).
End WithConstants.
