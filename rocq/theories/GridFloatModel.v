(** Model of the temperature/pressure ranges with numpy's rounding: every
    arithmetic operation on doubles is rounded to nearest-even with gradual
    underflow (Flocq's FLT format, 53 bits, least exponent -1074). Overflow,
    infinities and NaN are not modelled; the three numbers of a range are taken
    as the doubles the command line produced. *)
From Coq Require Import Reals List ZArith.
From Flocq Require Import Core.
From Verif Require Import StatMechModel GridModel.
Import ListNotations.
Open Scope R_scope.

(** One IEEE operation: the exact result rounded to a double. *)
Definition rnd (x : R) : R := round radix2 (FLT_exp (-1074) 53) ZnearestE x.
(** x is a double (up to overflow) *)
Definition double (x : R) : Prop := generic_format radix2 (FLT_exp (-1074) 53) x.

(** numpy's arange on three Python floats. The number of points comes from
    (stop - start)/step (an underflow of that quotient to zero counts as one
    point when positive, none when negative); the first point is start, the
    second start + step, and the i-th start + i*delta with delta the difference
    of the first two (DOUBLE_fill). *)
Definition point_f (start step : R) (i : nat) : R :=
  match i with
  | O => start
  | S O => rnd (start + step)
  | _ => rnd (start + rnd (INR i * rnd (rnd (start + step) - start)))
  end.
Definition count_f (start stop step : R) : nat :=
  let next := rnd (stop - start) in
  let v := rnd (next / step) in
  if Req_b v 0 then (if Req_b next 0 then 0%nat else if Rlt_dec 0 (next / step) then 1%nat else 0%nat)
  else Z.to_nat (ceil v).
Definition arange_f (start stop step : R) : option (list R) :=
  if Req_b step 0 then None else Some (map (point_f start step) (seq 0 (count_f start stop step))).
(** qha.py:287 and 313, harmonic.py:136: np.arange(r[0], r[1]+r[2], r[2]) *)
Definition set_range_f (r : R * R * R) : option (list R) :=
  let '(lo, hi, step) := r in arange_f lo (rnd (hi + step)) step.
