(** quantas/utils/physics/thermodynamics.pyx with the arithmetic of C doubles:
    every operation rounded to nearest-even, with gradual underflow, overflow to
    infinities, and NaN (the doubles [fp] of HoFloatModel). Divisions are the plain
    ones of C: adiabatic_bulk_modulus and gruneisen_parameter are compiled with
    cdivision, enthalpy and gibbs divide by a constant only; the generated
    thermodynamics.c tests no floating divisor.
    Simplified: the two zeros are one number; no contraction of a product and a sum
    into one operation. *)
From Coq Require Import Reals List Bool.
From Verif Require Import ParModel StatMechModel GridFloatModel HoFloatModel UnitsFloatModel.
Import ListNotations.
Open Scope R_scope.

Definition fmat := nat -> nat -> fp.
(** a == 0. of C: false for NaN and the infinities *)
Definition is_zero (a : fp) : bool := match a with Fin x => Req_b x 0 | _ => false end.

(** np.zeros, then one [prange] iteration per row storing its entries. *)
Definition store_row_f (m : nat) (val : fmat) (i : nat) : list (op fp) := map (fun j => SetTo i j (val i j)) (seq 0 m).
Definition fzeros : fmat := fun _ _ => Fin 0.
Definition kernel_f (n m : nat) (val : fmat) : fmat := exec fadd (flat_map (store_row_f m val) (seq 0 n)) fzeros.

Section WithConstants.
(** thermodynamics.pyx:17, cs.Avogadro *)
Variable NA : R.

(** p[j]*V[i,j]*NA/1000, products from the left (:55, :95; the int 1000 is
    converted to 1000.) *)
Definition pV_f (V p : fp) : fp := npdiv (fmul (fmul p V) (Fin NA)) (Fin 1000).
(** :53-55 *)
Definition enthalpy_entry_f (V : fmat) (p : nat -> fp) (U : fmat) (i j : nat) : fp := fadd (U i j) (pV_f (V i j) (p j)).
(** :21-57 *)
Definition enthalpy_f (n m : nat) (V : fmat) (p : nat -> fp) (U : fmat) : fmat := kernel_f n m (enthalpy_entry_f V p U).
(** :93-95 *)
Definition gibbs_entry_f (V : fmat) (p : nat -> fp) (F : fmat) (i j : nat) : fp := fadd (F i j) (pV_f (V i j) (p j)).
(** :61-97 *)
Definition gibbs_f (n m : nat) (V : fmat) (p : nat -> fp) (F : fmat) : fmat := kernel_f n m (gibbs_entry_f V p F).

(** :149-152, the term added to KT *)
Definition KS_term_f (T V KT alpha Cv factor : fp) : fp :=
  npdiv (npdiv (fmul (fmul (fmul (fmul alpha alpha) (fmul (fmul (fmul factor KT) factor) KT)) V) T) (npdiv Cv (Fin NA))) factor.
(** :146-154 *)
Definition KS_entry_f (T : nat -> fp) (V KT alpha Cv : fmat) (factor : fp) (i j : nat) : fp :=
  if (is_zero (T i) || is_zero (Cv i j))%bool then KT i j
  else fadd (KT i j) (KS_term_f (T i) (V i j) (KT i j) (alpha i j) (Cv i j) factor).
(** :103-155 *)
Definition adiabatic_bulk_modulus_f (n m : nat) (T : nat -> fp) (V KT alpha Cv : fmat) (factor : fp) : fmat :=
  kernel_f n m (KS_entry_f T V KT alpha Cv factor).

(** :198-205 *)
Definition gamma_entry_f (V KT alpha Cv : fmat) (i j : nat) : fp :=
  if is_zero (Cv i j) then Fin 0
  else npdiv (fmul (fmul (V i j) (KT i j)) (alpha i j)) (npdiv (Cv i j) (Fin NA)).
(** :161-206 *)
Definition gruneisen_parameter_f (n m : nat) (V KT alpha Cv : fmat) : fmat := kernel_f n m (gamma_entry_f V KT alpha Cv).
End WithConstants.
