(** What C83 asks of the C library and of the numbers, and the sizes its error
    bounds are measured in. u = 2^-53 is the unit roundoff. *)
From Coq Require Import Reals List ZArith.
From Flocq Require Import Core.
From Verif Require Import StatMechModel StatMechSpec GridFloatModel GridFloatProofs HoFloatModel.
Import ListNotations.
Open Scope R_scope.
Notation b2 := (bpow radix2).

(** Relative error of k units of roundoff. *)
Definition near (a b k : R) : Prop := Rabs (a - b) <= k * u * Rabs b.

(** * The C library: errors below one unit in the last place, or overflow *)
Definition tiny : R := 3 / 4 * b2 (-1074).
Definition good (f : R -> fp) (g : R -> R) (D : R -> Prop) : Prop :=
  forall x, double x -> Rabs x < b2 1024 -> D x ->
    (exists y, f x = Fin y /\ double y /\ Rabs y < b2 1024 /\ Rabs (y - g x) <= 2 * u * Rabs (g x) + tiny) \/
    (f x = Inf false /\ b2 1023 <= g x).
Record accurate (m : libm) : Prop := {
  exp_good : good (c_exp m) exp (fun _ => True);
  expm1_good : good (c_expm1 m) expm1 (fun _ => True);
  log_good : good (c_log m) ln (fun x => 0 < x);
  square_good : good (c_square m) (fun x => x ^ 2) (fun _ => True);
  milli_good : near (milli m) (/ 1000) 2
}.

(** * The numbers *)
(** Constants of the size of Planck's, Boltzmann's and Avogadro's. *)
Definition codata_sized (P : phys) : Prop :=
  b2 (-111) <= hpl P <= b2 (-110) /\ b2 (-76) <= KB P <= b2 (-75) /\ b2 78 <= NA P <= b2 79.
(** The quantum of an oscillator over the thermal energy. *)
Definition xi (P : phys) (T w : R) : R := hpl P * w / (KB P * T).
(** Temperature (K) and frequency (Hz) between 2^-100 and 2^100, about 1e-30
    and 1e30, and a quantum of at least 2^-40 thermal energies (at 300 K:
    5.7 Hz). *)
Definition box (T w : R) : Prop := b2 (-100) <= T <= b2 100 /\ b2 (-100) <= w <= b2 100.
Definition regular (P : phys) (T w : R) : Prop := box T w /\ b2 (-40) <= xi P T w.
(** A mode the tables may contain: imaginary or zero; or any usual frequency at
    0 K; or regular. *)
Definition usable (P : phys) (T w : R) : Prop :=
  w <= 0 \/ (T = 0 /\ b2 (-100) <= w <= b2 100) \/ regular P T w.

(** * Sizes: kJ/mol for energies, J/mol/K for the others *)
Definition if_real (w x : R) : R := if Rle_b w 0 then 0 else x.
Definition quantum (P : phys) (w : R) : R := / 1000 * NA P * (hpl P * w).
Definition thermal (P : phys) (T : R) : R := / 1000 * NA P * (KB P * T).
Definition gas (P : phys) : R := NA P * KB P.
Definition size_zpe (P : phys) (T w : R) : R := if_real w (quantum P w).
Definition size_eth (P : phys) (T w : R) : R := if_real w (thermal P T).
Definition size_S (P : phys) (T w : R) : R := if_real w (gas P * (1 + / xi P T w)).
Definition size_F (P : phys) (T w : R) : R := if_real w (quantum P w + thermal P T * (1 + / xi P T w)).
Definition size_Cv (P : phys) (T w : R) : R := if_real w (gas P).
