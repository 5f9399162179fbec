(** Specification vocabulary for the harmonic functions. *)
From Coq Require Import Reals List.
From Verif Require Import StatMechModel.
Import ListNotations.
Open Scope R_scope.

(** Plain mathematical sum of [f 0 .. f (n-1)]. *)
Fixpoint Rsum (n : nat) (f : nat -> R) : R :=
  match n with O => 0 | S n => Rsum n f + f n end.

(** Sum over q-points and modes at volume [n], with q-point weights. *)
Definition band_sum (b : bands) (w : nat -> R) (n : nat) (g : R -> R) : R :=
  Rsum (nb b) (fun j => Rsum (nf b) (fun k => g (freq b j k n) * w j)).

Definition physical (P : phys) : Prop := 0 < hpl P /\ 0 < KB P /\ 0 < NA P.
Definition nonneg_weights (b : bands) (w : nat -> R) : Prop :=
  forall j, (j < nb b)%nat -> 0 <= w j.
Definition sum_weights (b : bands) (w : nat -> R) : R := Rsum (nb b) w.
(** some mode at volume n is real (positive frequency) and counted *)
Definition has_mode (b : bands) (w : nat -> R) (n : nat) : Prop :=
  exists j k, (j < nb b)%nat /\ (k < nf b)%nat /\ 0 < freq b j k n /\ 0 < w j.
