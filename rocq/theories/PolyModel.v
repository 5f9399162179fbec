(** Model of quantas/utils/math/polynomials.py, fast_math.pyx and derivative.py.
    Not modelled: np.polynomial.polynomial.polyfit (least squares), the
    eigenvalue computation behind Polynomial.roots (a parameter). *)
From Coq Require Import Reals List Bool Arith.
From Verif Require Import ParModel StatMechModel ThermoModel.
Import ListNotations.
Open Scope R_scope.

(** fast_math.pyx:22-23; the exponent is an integer index. *)
Definition sInterp (x : R) (n : nat) (coeff : R) : R := coeff * x ^ n.

(** fast_math.pyx:38-42: one prange iteration of multi_interpolate_array. *)
Definition interp_row (nc nx : nat) (X : nat -> R) (c : mat) (i : nat) : list (op R) :=
  flat_map (fun j => map (fun k => AddTo i k (sInterp (X k) j (c i j))) (seq 0 nx)) (seq 0 nc).
(** fast_math.pyx:27-44 *)
Definition multi_interpolate_array (nv nc nx : nat) (X : nat -> R) (c : mat) : mat :=
  exec Rplus (flat_map (interp_row nc nx X c) (seq 0 nv)) zeros.
(** fast_math.pyx:46-60: the scalar version has a single column. *)
Definition multi_interpolate_scalar (nv nc : nat) (x : R) (c : mat) : nat -> R :=
  fun i => exec Rplus (flat_map (fun i => map (fun j => AddTo i 0%nat (sInterp x j (c i j))) (seq 0 nc)) (seq 0 nv)) zeros i 0%nat.

(** np.polynomial.polynomial.polyval (Horner), used by interpolate for one row
    of coefficients (polynomials.py:44-47), Polynomial.__call__ (27-28, 66). *)
Fixpoint polyval (x : R) (c : list R) : R :=
  match c with
  | [] => 0
  | [a] => a
  | a :: r => a + polyval x r * x
  end.
(** Polynomial.deriv (polynomials.py:61) *)
Fixpoint deriv_aux (n : nat) (c : list R) : list R :=
  match c with [] => [] | a :: r => INR n * a :: deriv_aux (S n) r end.
Definition deriv (c : list R) : list R := match c with [] => [] | _ :: r => deriv_aux 1 r end.
(** Polynomial + scalar (polynomials.py:63) *)
Definition add_const (c : list R) (a : R) : list R := match c with [] => [a] | x :: r => x + a :: r end.

Section Roots.
(** Polynomial.roots(): real and imaginary parts. *)
Variable roots : list R -> list (R * R).
(** polynomials.py:57-68 *)
Definition find_polynomial_minimum (parameters : list R) (addendum : option R) : list R :=
  let df := match addendum with Some a => add_const (deriv parameters) a | None => deriv parameters end in
  let real_points := map fst (filter (fun z => Req_b (snd z) 0) (roots df)) in
  filter (fun x => negb (Rle_b (polyval x (deriv (deriv parameters))) 0)) real_points.
(** qha.py:1054: [0] of the result; IndexError when there is none. *)
Definition volume_at (parameters : list R) (pressure : R) : option R :=
  hd_error (find_polynomial_minimum parameters (Some pressure)).
End Roots.

(** fast_math.pyx:68-104. Sums over a row, each thread owning its row. *)
Definition acc_row (n : nat) (val : nat -> nat -> R) (i : nat) : list (op R) :=
  map (fun j => AddTo i 0%nat (val i j)) (seq 0 n).
Definition row_sums (ny n : nat) (val : nat -> nat -> R) : nat -> R :=
  fun i => exec Rplus (flat_map (acc_row n val) (seq 0 ny)) zeros i 0%nat.
Definition multi_R2 (ny nc nx : nat) (X : nat -> R) (Y c : mat) : nat -> R :=
  let yhat := multi_interpolate_array ny nc nx X c in
  let ybar := row_sums ny nx (fun i j => Y i j / INR nx) in
  let ssreg := row_sums ny nx (fun i j => (yhat i j - ybar i) ^ 2) in
  let sstot := row_sums ny nx (fun i j => (Y i j - ybar i) ^ 2) in
  fun i => if Req_b (sstot i) 0 then 0 else ssreg i / sstot i.

(** polynomials.py:25-32, None standing for the nan/inf of a zero division. *)
Definition lsum (l : list R) : R := fold_right Rplus 0 l.
Definition single_R_squared (X Y : list R) (pars : list R) : option R :=
  let yhat := map (fun x => polyval x pars) X in
  let ybar := lsum Y / INR (List.length X) in
  let ssreg := lsum (map (fun y => (y - ybar) ^ 2) yhat) in
  let sstot := lsum (map (fun y => (y - ybar) ^ 2) Y) in
  if Req_b sstot 0 then None else Some (ssreg / sstot).

(** np.gradient on a 1-D array with unit spacing. None: fewer than two values
    (numpy raises ValueError). *)
Definition gradient (Y : list R) : option (list R) :=
  let n := List.length Y in
  let y i := nth i Y 0 in
  if (n <? 2)%nat then None
  else Some (map (fun i =>
    if (i =? 0)%nat then y 1%nat - y 0%nat
    else if (S i =? n)%nat then y i - y (i - 1)%nat
    else (y (S i) - y (i - 1)%nat) / 2) (seq 0 n)).
Inductive outcome := Values (l : list R) | LenError | ValueError.
Definition zip_div (a b : list R) : list R := map (fun p => fst p / snd p) (combine a b).
(** derivative.py:17-38. Arrays of different lengths cannot be divided
    (ValueError; numpy would broadcast a length-1 gradient, which cannot occur). *)
Definition derivative (X Y : list R) : outcome :=
  if ((List.length X <=? 1) && (List.length Y <=? 1))%nat%bool then LenError
  else match gradient Y, gradient X with
       | Some gy, Some gx => if (List.length gy =? List.length gx)%nat then Values (zip_div gy gx) else ValueError
       | _, _ => ValueError
       end.
