(** Text of numbers: Python float(str) on decimal literals, '{:w.kf}'.format and
    file.readlines. Values are exact reals plus NaN (no binary rounding; the
    literals inf/infinity and digit-separating underscores are refused here,
    simplification). *)
From Coq Require Import Reals String Ascii List Bool Arith ZArith NArith.
From Verif Require Import Py.
Import ListNotations.
Open Scope string_scope.

Inductive fl := Num (x : R) | NaN.
Definition fop (f : R -> R -> R) (a b : fl) : fl := match a, b with Num x, Num y => Num (f x y) | _, _ => NaN end.
Definition fadd := fop Rplus.
Definition fsub := fop Rminus.
Definition fmul := fop Rmult.

Definition is_digit (a : ascii) : bool := let n := nat_of_ascii a in ((48 <=? n) && (n <=? 57))%nat.
Definition digit_value (a : ascii) : N := N.of_nat (nat_of_ascii a - 48).
Definition digit_char (d : N) : ascii := ascii_of_nat (48 + N.to_nat d).
(** Longest prefix of digits, and the rest. *)
Fixpoint take_digits (s : string) : string * string :=
  match s with
  | String a r => if is_digit a then (String a (fst (take_digits r)), snd (take_digits r)) else (EmptyString, s)
  | EmptyString => (EmptyString, EmptyString)
  end.
Fixpoint digits_from (acc : N) (s : string) : N :=
  match s with String a r => digits_from (acc * 10 + digit_value a) r | EmptyString => acc end.
Definition digits (s : string) : N := digits_from 0 s.
Definition take_sign (s : string) : bool * string :=
  match s with
  | String a r => if Ascii.eqb a "-" then (true, r) else if Ascii.eqb a "+" then (false, r) else (false, s)
  | EmptyString => (false, s)
  end.
Definition literal (neg : bool) (ip fp : string) (e : Z) : fl :=
  Num ((if neg then -1 else 1) * IZR (Z.of_N (digits (ip ++ fp))) * powerRZ 10 (e - Z.of_nat (String.length fp)))%R.
(** float(s) for a string without white space; None is ValueError. *)
Definition parse_float (s : string) : option fl :=
  let (neg, s1) := take_sign s in
  if String.eqb (lower s1) "nan" then Some NaN else
  let (ip, s2) := take_digits s1 in
  let (fp, s3) := match s2 with
                  | String a r => if Ascii.eqb a "." then take_digits r else (EmptyString, s2)
                  | EmptyString => (EmptyString, s2) end in
  match ip ++ fp with
  | EmptyString => None
  | _ => match s3 with
         | EmptyString => Some (literal neg ip fp 0)
         | String a r =>
             if Ascii.eqb (lower_ascii a) "e" then
               let (eneg, r1) := take_sign r in
               let (ed, r2) := take_digits r1 in
               match ed, r2 with
               | String _ _, EmptyString =>
                   Some (literal neg ip fp (if eneg then - Z.of_N (digits ed) else Z.of_N (digits ed))%Z)
               | _, _ => None
               end
             else None
         end
  end.

(** The last k decimal digits of n. *)
Fixpoint fixed (k : nat) (n : N) : string :=
  match k with O => EmptyString | S k' => fixed k' (n / 10)%N ++ String (digit_char (n mod 10)%N) EmptyString end.
Fixpoint ndigits (fuel : nat) (n : N) : nat :=
  match fuel with O => 1%nat | S f => if (n <? 10)%N then 1%nat else S (ndigits f (n / 10)%N) end.
Definition print_nat (n : N) : string := fixed (ndigits (N.size_nat n) n) n.
(** Decimal text with k digits after the point of n / 10^k. *)
Definition print_fixed (k : nat) (n : N) : string :=
  let b := (10 ^ N.of_nat k)%N in print_nat (n / b)%N ++ "." ++ fixed k (n mod b)%N.
Fixpoint spaces (n : nat) : string := match n with O => EmptyString | S m => String " " (spaces m) end.
Definition pad_left (w : nat) (s : string) : string := spaces (w - String.length s) ++ s.

(** file.readlines(): lines keep their newline (only \n ends a line here). *)
Definition newline : ascii := "010"%char.
Fixpoint readlines_aux (cur : string) (s : string) : list string :=
  match s with
  | EmptyString => match cur with EmptyString => [] | _ => [cur] end
  | String a r => if Ascii.eqb a newline then (cur ++ String a EmptyString) :: readlines_aux EmptyString r
                  else readlines_aux (cur ++ String a EmptyString) r
  end.
Definition readlines (s : string) : list string := readlines_aux EmptyString s.
(** '\n'.join *)
Fixpoint join_lines (l : list string) : string :=
  match l with
  | [] => EmptyString
  | [x] => x
  | x :: r => x ++ String newline (join_lines r)
  end.
