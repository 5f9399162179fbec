(** Python number formatting used by the input generators: '{:w.kf}',
    '{: w.kE}', '%wd', '%-wd' on exact reals and integers. Python formats the
    exact value of the binary number, to the nearest decimal (ties to even);
    negative zero, infinities and NaN are not modelled. *)
From Coq Require Import Reals String Ascii List Bool Arith ZArith NArith.
From Flocq Require Import Core.
From Verif Require Import Py DecimalModel.
Import ListNotations.
Open Scope string_scope.

Definition minus_or (other : string) (neg : bool) : string := if neg then "-" else other.
(** '{:.kf}' *)
Definition scaled (k : nat) (x : R) : N := Z.to_N (ZnearestE (Rabs x * powerRZ 10 (Z.of_nat k))).
Definition fix_text (k : nat) (x : R) : string := minus_or "" (Rlt_bool x 0) ++ print_fixed k (scaled k x).
(** '{:w.kf}' and '%w.kf' *)
Definition fmt_f (w k : nat) (x : R) : string := pad_left w (fix_text k x).

(** Decimal exponent of a non-zero number: 10^e <= |x| < 10^(e+1) *)
Definition radix10 : radix := Build_radix 10 eq_refl.
Definition exponent (x : R) : Z := (mag radix10 x - 1)%Z.
(** k+1 significant digits and the exponent; a carry to k+2 digits moves the
    exponent *)
Definition sci_parts (k : nat) (x : R) : N * Z :=
  if Req_bool x 0 then (0%N, 0%Z) else
  let e := exponent x in
  let m := Z.to_N (ZnearestE (Rabs x * powerRZ 10 (Z.of_nat k - e))) in
  if (m =? 10 ^ N.of_nat (S k))%N then ((10 ^ N.of_nat k)%N, (e + 1)%Z) else (m, e).
(** exponents have at least two digits *)
Definition exp_text (e : Z) : string :=
  (if (e <? 0)%Z then "-" else "+") ++ (if (Z.abs e <? 10)%Z then "0" else "") ++ print_nat (Z.to_N (Z.abs e)).
(** '{: .kE}' *)
Definition sci_text (k : nat) (x : R) : string :=
  minus_or " " (Rlt_bool x 0) ++ print_fixed k (fst (sci_parts k x)) ++ "E" ++ exp_text (snd (sci_parts k x)).
(** '{: w.kE}' *)
Definition fmt_E (w k : nat) (x : R) : string := pad_left w (sci_text k x).

(** '%d' of an integer, and of a float (truncated towards zero) *)
Definition int_text (z : Z) : string := minus_or "" (z <? 0)%Z ++ print_nat (Z.to_N (Z.abs z)).
Definition fmt_d (w : nat) (z : Z) : string := pad_left w (int_text z).
Definition pad_right (w : nat) (s : string) : string := s ++ spaces (w - String.length s).
Definition fmt_d_left (w : nat) (z : Z) : string := pad_right w (int_text z).
