(** The oscillator functions of quantas/utils/physics/statistical_mechanics.pyx
    with the arithmetic of C doubles: rounding to nearest-even, gradual
    underflow, overflow to infinities, NaN, and Cython's test for division by
    zero (the module is not compiled with cdivision; see the generated
    statistical_mechanics.c:2623-2670): the exception is printed, the function
    returns 0.
    Simplified: the two zeros are one number (a divisor that is zero never
    reaches the division); temperatures and frequencies are finite. *)
From Coq Require Import Reals List ZArith Bool.
From Flocq Require Import Core.
From Verif Require Import ParModel StatMechModel GridFloatModel.
Import ListNotations.
Open Scope R_scope.

(** A double: finite, infinite (true: negative), or NaN. *)
Inductive fp := Fin (x : R) | Inf (negative : bool) | Nan.
Definition Rlt_b (a b : R) : bool := if Rlt_dec a b then true else false.
(** Overflow of a rounded result. *)
Definition fit (r : R) : fp :=
  if Rlt_b (Rabs r) (bpow radix2 1024) then Fin r else Inf (Rlt_b r 0).
Definition result (x : R) : fp := fit (rnd x).

Definition fneg (a : fp) : fp :=
  match a with Fin x => Fin (- x) | Inf s => Inf (negb s) | Nan => Nan end.
Definition fadd (a b : fp) : fp :=
  match a, b with
  | Fin x, Fin y => result (x + y)
  | Inf s, Inf t => if Bool.eqb s t then Inf s else Nan
  | Nan, _ | _, Nan => Nan
  | Inf s, Fin _ | Fin _, Inf s => Inf s
  end.
Definition fsub (a b : fp) : fp := fadd a (fneg b).
Definition fmul (a b : fp) : fp :=
  match a, b with
  | Fin x, Fin y => result (x * y)
  | Inf s, Inf t => Inf (xorb s t)
  | Nan, _ | _, Nan => Nan
  | Inf s, Fin x | Fin x, Inf s => if Req_b x 0 then Nan else Inf (xorb s (Rlt_b x 0))
  end.
(** a / b as Cython writes it; None is ZeroDivisionError *)
Definition fdiv (a b : fp) : option fp :=
  match a, b with
  | _, Fin y => if Req_b y 0 then None else
      Some (match a with Fin x => result (x / y) | Inf s => Inf (xorb s (Rlt_b y 0)) | Nan => Nan end)
  | Fin _, Inf _ => Some (Fin 0)
  | _, _ => Some Nan
  end.
(** An exception in a function that cannot raise: it is printed, 0 is returned. *)
Definition unraisable (r : option fp) : fp := match r with Some v => v | None => Fin 0 end.
Definition bindf (r : option fp) (k : fp -> option fp) : option fp := match r with Some v => k v | None => None end.
Notation "'let?' x := r 'in' k" := (bindf r (fun x => k)) (at level 200, x name, k at level 200).

(** The C library on finite arguments: exp, expm1, log (positive arguments),
    pow(., 2), and the number pow(10., -3.). *)
Record libm := { c_exp : R -> fp; c_expm1 : R -> fp; c_log : R -> fp; c_square : R -> fp; milli : R }.

Section Functions.
Variable m : libm.
(** C99 annex F on infinities, NaN, zero and negative numbers. *)
Definition f_exp (a : fp) : fp := match a with Fin x => c_exp m x | Inf true => Fin 0 | Inf false => Inf false | Nan => Nan end.
Definition f_expm1 (a : fp) : fp := match a with Fin x => c_expm1 m x | Inf true => Fin (-1) | Inf false => Inf false | Nan => Nan end.
Definition f_log (a : fp) : fp :=
  match a with
  | Fin x => if Req_b x 0 then Inf true else if Rlt_b x 0 then Nan else c_log m x
  | Inf true => Nan | Inf false => Inf false | Nan => Nan
  end.
Definition f_square (a : fp) : fp := match a with Fin x => c_square m x | Inf _ => Inf false | Nan => Nan end.

Variable P : phys.
Definition fH : fp := Fin (hpl P).
Definition fKB : fp := Fin (KB P).
Definition fNA : fp := Fin (NA P).
Definition fmilli : fp := Fin (milli m).

(** statistical_mechanics.pyx:28-33 *)
Definition ho_zpe_f (temperature omega : R) : fp :=
  if Rle_b omega 0 then Fin 0
  else fmul (fmul (fmul fmilli fNA) fH) (fmul (Fin omega) (Fin (1 / 2))).
(** :92-100 *)
Definition ho_eth_f (temperature omega : R) : fp :=
  if (Rle_b omega 0 || Req_b temperature 0)%bool then Fin 0
  else unraisable (
    let n := fmul fH (Fin omega) in
    let? x := fdiv n (fmul fKB (Fin temperature)) in
    let? q := fdiv n (f_expm1 x) in
    Some (fmul (fmul fmilli fNA) q)).
(** :194-203 *)
Definition ho_S_f (temperature omega : R) : fp :=
  if (Rle_b omega 0 || Req_b temperature 0)%bool then Fin 0
  else unraisable (
    let? x := fdiv (fmul fH (Fin omega)) (fmul fKB (Fin temperature)) in
    let? n := fdiv (Fin 1) (f_expm1 x) in
    let l := f_log (fsub (Fin 1) (f_exp (fneg x))) in
    Some (fmul (fmul fNA fKB) (fsub (fmul n x) l))).
(** :262-274 *)
Definition ho_F_f (temperature omega : R) : fp :=
  if Rle_b omega 0 then Fin 0
  else
    let hw := fmul fH (Fin omega) in
    if Req_b temperature 0 then fmul (fmul fmilli fNA) (fmul (Fin (1 / 2)) hw)
    else unraisable (
      let? x := fdiv (fmul fH (Fin omega)) (fmul fKB (Fin temperature)) in
      let kt := fmul fKB (Fin temperature) in
      Some (fmul (fmul fmilli fNA) (fadd (fmul (Fin (1 / 2)) hw) (fmul kt (f_log (fsub (Fin 1) (f_exp (fneg x)))))))).
(** :353-365 *)
Definition ho_Cv_f (temperature omega : R) : fp :=
  if (Rle_b omega 0 || Req_b temperature 0)%bool then Fin 0
  else unraisable (
    let? x := fdiv (fmul fH (Fin omega)) (fmul fKB (Fin temperature)) in
    let e := f_exp x in
    let? q := fdiv x (f_expm1 x) in
    let n := f_square q in
    match n with
    | Fin y => if Req_b y 0 then Some (Fin 0) else Some (fmul (fmul (fmul fNA fKB) e) n)
    | _ => Some (fmul (fmul (fmul fNA fKB) e) n)
    end).

(** The loops (:83-87, 150-154, 253-257, 323-327, 380-384) on doubles. *)
Definition band_loop_f (ho : R -> R -> fp) (nt : nat) (T : nat -> R) (b : bands) (w : nat -> R) : nat -> nat -> fp :=
  exec fadd (flat_map (accumulate (nb b) (nf b) (nv b) (fun i j k n => fmul (ho (T i) (freq b j k n)) (Fin (w j)))) (seq 0 nt))
    (fun _ _ => Fin 0).
End Functions.
