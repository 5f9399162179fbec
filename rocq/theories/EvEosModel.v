(** Model of quantas/qha/utils/ev_eos.py: the energy-volume equations of state
    and the pressure derived from their parameters. [x ** y] with a real
    exponent is [Rpower] (equal for x > 0). [fit] and [guess] (67-156) are in
    GuessModel. *)
From Coq Require Import Reals String.
From Verif Require Import PvEosModel.
Open Scope R_scope.

(** The signature of the four formulations: V, E0, K0, KP, V0. *)
Definition ev_form := R -> R -> R -> R -> R -> R.

(** ev_eos.py:193 *)
Definition ev_murnaghan : ev_form := fun V E0 K0 KP V0 =>
  E0 + K0 * V / KP * (Rpower (V0 / V) KP / (KP - 1) + 1) - V0 * K0 / (KP - 1).

(** ev_eos.py:236-239 *)
Definition ev_birchmurnaghan : ev_form := fun V E0 K0 KP V0 =>
  let eta := Rpower (V0 / V) (1 / 3) in
  E0 + (9 * K0 * V0 / 16) * (KP * (eta ^ 2 - 1) ^ 3 + (eta ^ 2 - 1) ^ 2 * (6 - 4 * eta ^ 2)).

(** ev_eos.py:283-286 *)
Definition ev_pouriertarantola : ev_form := fun V E0 K0 KP V0 =>
  let eta := Rpower (V / V0) (1 / 3) in
  let rho := -3 * ln eta in
  E0 + (K0 * V0 * rho ^ 2) / 6 * (3 + rho * (KP - 2)).

(** ev_eos.py:328-332 *)
Definition ev_vinet : ev_form := fun V E0 K0 KP V0 =>
  let eta := Rpower (V / V0) (1 / 3) in
  E0 + 2 * K0 * V0 / (KP - 1) ^ 2
    * (2 - (5 + 3 * KP * (eta - 1) - 3 * eta) * exp (-3 * (KP - 1) * (eta - 1) / 2)).

(** ev_eos.py:41-52: None when the tag is unknown ([eval(None)] then raises). *)
Definition set_eos_type (tag : string) : option ev_form :=
  if (tag =? "murnaghan")%string then Some ev_murnaghan
  else if (tag =? "birchmurnaghan")%string then Some ev_birchmurnaghan
  else if (tag =? "vinet")%string then Some ev_vinet
  else if (tag =? "pouriertarantola")%string then Some ev_pouriertarantola
  else None.
(** ev_eos.py:54-65 *)
Definition set_pv_eos_type (tag : string) : option eos_method :=
  if (tag =? "murnaghan")%string then Some murnaghan
  else if (tag =? "birchmurnaghan")%string then Some birch_murnaghan
  else if (tag =? "vinet")%string then Some vinet
  else if (tag =? "pouriertarantola")%string then Some natural_strain
  else None.

(** ev_eos.py:335-374: K'' is zero and [dofit] keeps its default, False
    (pv_eos.py:249, 456, 663). *)
Definition pressure (tag : string) (E0 k0 kp v0 : R) (V : R) : option R :=
  option_map (fun eos : eos_method =>
    snd (eos {| K0 := k0; K1 := kp; K2 := 0; V0 := v0 |} V 3%nat false false)) (set_pv_eos_type tag).
