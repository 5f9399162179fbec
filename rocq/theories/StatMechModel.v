(** Model of quantas/utils/physics/statistical_mechanics.pyx.
    Frequencies, weights and temperatures are exact reals; arrays are functions
    of their indices together with explicit sizes. *)
From Coq Require Import Reals List.
From Verif Require Import ParModel.
Import ListNotations.
Open Scope R_scope.

(** statistical_mechanics.pyx:17-19 *)
Record phys := { hpl : R; KB : R; NA : R }.

Definition expm1 (x : R) : R := exp x - 1.
Definition Rle_b (a b : R) : bool := if Rle_dec a b then true else false.
Definition Req_b (a b : R) : bool := if Req_EM_T a b then true else false.

Section WithConstants.
Variable P : phys.

(** :28-33 *)
Definition ho_zpe (temperature omega : R) : R :=
  if Rle_b omega 0 then 0
  else / 1000 * NA P * hpl P * (omega * (1 / 2)).

(** :92-100 *)
Definition ho_eth (temperature omega : R) : R :=
  if (Rle_b omega 0 || Req_b temperature 0)%bool then 0
  else
    let n := hpl P * omega in
    let x := n / (KB P * temperature) in
    / 1000 * NA P * (n / expm1 x).

(** :194-203 *)
Definition ho_S (temperature omega : R) : R :=
  if (Rle_b omega 0 || Req_b temperature 0)%bool then 0
  else
    let x := hpl P * omega / (KB P * temperature) in
    let n := 1 / expm1 x in
    let l := ln (1 - exp (- x)) in
    NA P * KB P * (n * x - l).

(** :262-274 *)
Definition ho_F (temperature omega : R) : R :=
  if Rle_b omega 0 then 0
  else
    let hw := hpl P * omega in
    if Req_b temperature 0 then / 1000 * NA P * (1 / 2 * hw)
    else
      let x := hpl P * omega / (KB P * temperature) in
      let kt := KB P * temperature in
      / 1000 * NA P * (1 / 2 * hw + kt * ln (1 - exp (- x))).

(** :353-365 *)
Definition ho_Cv (temperature omega : R) : R :=
  if (Rle_b omega 0 || Req_b temperature 0)%bool then 0
  else
    let x := hpl P * omega / (KB P * temperature) in
    let e := exp x in
    let n := (x / expm1 x) ^ 2 in
    if Req_b n 0 then 0 else NA P * KB P * e * n.

(** A phonon band array: sizes (nb, nf, nv) and its entries. *)
Record bands := { nb : nat; nf : nat; nv : nat; freq : nat -> nat -> nat -> R }.

(** The body of one [prange] iteration [i], :83-87 and :150-154, 253-257,
    323-327, 380-384: for j, for k, for n: result[i,n] += val(i,j,k,n).
    (The five loops are the same up to the summand; the element type is a
    parameter so that it can also be read with floating-point addition.) *)
Definition accumulate {A : Type} (nb nf nv : nat) (val : nat -> nat -> nat -> nat -> A) (i : nat)
  : list (op A) :=
  flat_map (fun j =>
    flat_map (fun k => map (fun n => AddTo i n (val i j k n)) (seq 0 nv)) (seq 0 nf))
    (seq 0 nb).

Definition band_iteration (ho : R -> R -> R) (T : nat -> R) (b : bands) (w : nat -> R)
           (i : nat) : list (op R) :=
  accumulate (nb b) (nf b) (nv b) (fun i j k n => ho (T i) (freq b j k n) * w j) i.

(** np.zeros *)
Definition zeros : nat -> nat -> R := fun _ _ => 0.

(** The loops run sequentially (StatMechProps shows every parallel schedule
    gives the same array). *)
Definition band_loop (ho : R -> R -> R) (nt : nat) (T : nat -> R) (b : bands) (w : nat -> R)
  : nat -> nat -> R :=
  exec Rplus (flat_map (band_iteration ho T b w) (seq 0 nt)) zeros.

(** :37-89 *)
Definition zero_point_energy := band_loop ho_zpe.
(** :105-156 *)
Definition thermal_energy := band_loop ho_eth.
(** :208-259 *)
Definition entropy := band_loop ho_S.
(** :279-329 *)
Definition vibrational_free_energy := band_loop ho_F.
(** :369-386 *)
Definition isochoric_heat_capacity := band_loop ho_Cv.

End WithConstants.

(** :160-192 *)
Definition internal_energy_iteration (nvol : nat) (U0 Uzp : nat -> R) (Uth : nat -> nat -> R)
  (i : nat) : list (op R) :=
  map (fun j => AddTo i j (U0 j + Uzp j + Uth i j)) (seq 0 nvol).
Definition internal_energy (nt nvol : nat) (U0 Uzp : nat -> R) (Uth : nat -> nat -> R)
  : nat -> nat -> R :=
  exec Rplus (flat_map (internal_energy_iteration nvol U0 Uzp Uth) (seq 0 nt)) zeros.

(** :334-350 *)
Definition free_energy_iteration (nvol : nat) (U0 : nat -> R) (Fvib : nat -> nat -> R)
  (i : nat) : list (op R) :=
  map (fun j => AddTo i j (U0 j + Fvib i j)) (seq 0 nvol).
Definition free_energy (nt nvol : nat) (U0 : nat -> R) (Fvib : nat -> nat -> R) : nat -> nat -> R :=
  exec Rplus (flat_map (free_energy_iteration nvol U0 Fvib) (seq 0 nt)) zeros.
