(** Model of quantas/eosfit/utils/pv_eos.py: the five pressure-volume equations
    of state, on one volume (numpy evaluates them element-wise).
    The parameter array p = [K0, K', K'', V0] is mutated by the call, so each
    [eos] returns the array after the call together with the pressure.
    [x ** y] and [np.power] are [Rpower] (equal for x > 0; numpy gives nan for
    x < 0, which is outside the theorems' hypotheses); integer powers are [^]. *)
From Coq Require Import Reals Arith Bool.
Open Scope R_scope.

Record pars := { K0 : R; K1 : R; K2 : R; V0 : R }.
Definition set_K1 (p : pars) (x : R) : pars := {| K0 := K0 p; K1 := x; K2 := K2 p; V0 := V0 p |}.
Definition set_K2 (p : pars) (x : R) : pars := {| K0 := K0 p; K1 := K1 p; K2 := x; V0 := V0 p |}.

(** The type of an [eos] method: p, V, order, linear, dofit. *)
Definition eos_method := pars -> R -> nat -> bool -> bool -> pars * R.

(** pv_eos.py:220-223 *)
Definition murnaghan : eos_method := fun p V order linear dofit =>
  let p := set_K2 p 0 in
  let eta := Rpower (V0 p / V) (K1 p) in
  (p, K0 p / K1 p * (eta - 1)).

(** The order-2 assignment of K' shared by four of the methods:
    pv_eos.py:322-325, 536-539, 727-730, 930-933 *)
Definition second_order (vol lin : R) (p : pars) (order : nat) (linear dofit : bool) : pars :=
  if (dofit && (order =? 2)%nat)%bool then set_K1 p (if linear then lin else vol) else p.

(** pv_eos.py:321-329 *)
Definition bm_pars (p : pars) (order : nat) (linear dofit : bool) : pars :=
  let p := second_order 4 12 p order linear dofit in
  if (dofit && (order <? 4)%nat)%bool
  then set_K2 p (-1 / K0 p * ((3 - K1 p) * (4 - K1 p) + 35 / 9)) else p.
(** pv_eos.py:249-340 *)
Definition birch_murnaghan : eos_method := fun p V order linear dofit =>
  let p := bm_pars p order linear dofit in
  let fE := 1 / 2 * (Rpower (V0 p / V) (2 / 3) - 1) in
  (p, 3 * K0 p * fE * Rpower (1 + 2 * fE) (5 / 2) *
      (1 + 3 / 2 * (K1 p - 4) * fE
       + 3 / 2 * (K0 p * K2 p + (K1 p - 4) * (K1 p - 3) + 35 / 9) * fE ^ 2)).

(** pv_eos.py:535-541 *)
Definition ns_pars (p : pars) (order : nat) (linear dofit : bool) : pars :=
  let p := second_order 2 6 p order linear dofit in
  if (dofit && (order <? 4)%nat)%bool
  then set_K2 p (-1 / K0 p * (1 + (K1 p - 2) + (K1 p - 2) ^ 2)) else p.
(** pv_eos.py:456-550 *)
Definition natural_strain : eos_method := fun p V order linear dofit =>
  let p := ns_pars p order linear dofit in
  let fN := 1 / 3 * ln (V0 p / V) in
  let a := 3 / 2 * (K1 p - 2) in
  let b := 3 / 2 * (1 + K2 p * K0 p + (K1 p - 2) + (K1 p - 2) ^ 2) in
  (p, 3 * K0 p * (V0 p / V) * fN * (1 + a * fN + b * fN ^ 2)).

(** pv_eos.py:726-733 (K'' is always implied; the constant is 19/46) *)
Definition vinet_pars (p : pars) (order : nat) (linear dofit : bool) : pars :=
  let p := second_order 1 3 p order linear dofit in
  set_K2 p (-1 / K0 p * ((K1 p / 2) ^ 2 + K1 p / 2 - 19 / 46)).
(** pv_eos.py:663-741 *)
Definition vinet : eos_method := fun p V order linear dofit =>
  let p := vinet_pars p order linear dofit in
  let fV := 1 - Rpower (V / V0 p) (1 / 3) in
  let eta := 3 / 2 * (K1 p - 1) in
  (p, 3 * K0 p * (fV / (1 - fV) ^ 2) * exp (eta * fV)).

(** pv_eos.py:929-935 *)
Definition tait_pars (p : pars) (order : nat) (linear dofit : bool) : pars :=
  let p := second_order 4 12 p order linear dofit in
  if (dofit && (order <? 4)%nat)%bool then set_K2 p (- K1 p / K0 p) else p.
(** pv_eos.py:937-939 *)
Definition tait_a (p : pars) : R := (1 + K1 p) / (1 + K1 p + K0 p * K2 p).
Definition tait_b (p : pars) : R := K1 p / K0 p - K2 p / (1 + K1 p).
Definition tait_c (p : pars) : R := (1 + K1 p + K0 p * K2 p) / (K1 p ^ 2 + K1 p - K0 p * K2 p).
(** pv_eos.py:855-943 *)
Definition tait : eos_method := fun p V order linear dofit =>
  let p := tait_pars p order linear dofit in
  (p, 1 / tait_b p * (Rpower ((V / V0 p + tait_a p - 1) / tait_a p) (-1 / tait_c p) - 1)).
