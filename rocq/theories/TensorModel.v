(** Model of quantas/soec/utils/soec_obj.py: direction vectors, tensors built
    from Voigt matrices, directional and averaged elastic properties, the
    orthorhombic formulas. Loops over itertools.product are nested sums (the
    order of additions is not kept: exact reals). The matrix inverse
    (numpy.linalg.inv) is not modelled: the compliance is a second matrix.
    1/0 is the value Coq gives it; the theorems assume nonzero denominators. *)
From Coq Require Import Reals List Arith.
From Verif Require Import SymmetryModel.
Import ListNotations.
Open Scope R_scope.

Definition vec := nat -> R.
Definition vec3 (a b c : R) : vec := fun i => match i with 0%nat => a | 1%nat => b | _ => c end.
(** soec_obj.py:40-43; seismic_obj.py:37-42 *)
Definition vector (theta phi : R) : vec :=
  vec3 (sin theta * cos phi) (sin theta * sin phi) (cos theta).
(** soec_obj.py:44-47 *)
Definition vector_chi (theta phi chi : R) : vec :=
  vec3 (cos theta * cos phi * cos chi - sin phi * sin chi)
       (cos theta * sin phi * cos chi + cos phi * sin chi)
       (- sin theta * cos chi).

Definition sum3 (f : nat -> R) : R := f 0%nat + f 1%nat + f 2%nat.
Definition tensor4 := nat -> nat -> nat -> nat -> R.
(** soec_obj.py:122, 143 *)
Definition vm (i j : nat) : nat := nth j (nth i [[0; 5; 4]; [5; 1; 3]; [4; 3; 2]] [])%nat 0%nat.
(** soec_obj.py:104-124 and 98-100 *)
Definition C_ijkl (C : mat6) : tensor4 := fun i j k l => C (vm i j) (vm k l).
(** soec_obj.py:145-147 and 94-96 *)
Definition sc (p q : nat) : R := 1 / ((1 + INR (p / 3)) * (1 + INR (q / 3))).
Definition S_ijkl (S : mat6) : tensor4 := fun i j k l => sc (vm i j) (vm k l) * S (vm i j) (vm k l).

(** The loops, as functions of the tensor and the vectors. *)
(** soec_obj.py:181-183 *)
Definition loop_aaaa (T : tensor4) (a : vec) : R :=
  sum3 (fun i => sum3 (fun j => sum3 (fun k => sum3 (fun l => T i j k l * a i * a j * a k * a l)))).
(** soec_obj.py:204-207 *)
Definition loop_aakk (T : tensor4) (a : vec) : R :=
  sum3 (fun i => sum3 (fun j => sum3 (fun k => a i * a j * T i j k k))).
(** soec_obj.py:231-233 *)
Definition loop_abab (T : tensor4) (a b : vec) : R :=
  sum3 (fun i => sum3 (fun j => sum3 (fun k => sum3 (fun l => a i * b j * a k * b l * T i j k l)))).
(** soec_obj.py:257-260 *)
Definition loop_aabb (T : tensor4) (a b : vec) : R :=
  sum3 (fun i => sum3 (fun j => sum3 (fun k => sum3 (fun l => a i * a j * b k * b l * T i j k l)))).

(** soec_obj.py:163-184 *)
Definition young_modulus (S : mat6) (theta phi : R) : R := 1 / loop_aaaa (S_ijkl S) (vector theta phi).
(** soec_obj.py:186-208 *)
Definition linear_compressibility (S : mat6) (theta phi : R) : R := 1000 * loop_aakk (S_ijkl S) (vector theta phi).
(** soec_obj.py:210-234 *)
Definition shear_modulus (S : mat6) (theta phi chi : R) : R :=
  1 / (4 * loop_abab (S_ijkl S) (vector theta phi) (vector_chi theta phi chi)).
(** soec_obj.py:236-262 *)
Definition poisson_ratio (S : mat6) (theta phi chi : R) : R :=
  - loop_aabb (S_ijkl S) (vector theta phi) (vector_chi theta phi chi) / loop_aaaa (S_ijkl S) (vector theta phi).

(** np.einsum('iijj', T) *)
Definition einsum_iijj (T : tensor4) : R := sum3 (fun i => sum3 (fun j => T i i j j)).
(** soec_obj.py:306-321 *)
Definition KV (C : mat6) : R := einsum_iijj (C_ijkl C) / 9.
Definition KR (S : mat6) : R := 1 / einsum_iijj (S_ijkl S).
Definition GV (C : mat6) : R :=
  (C 0%nat 0%nat + C 1%nat 1%nat + C 2%nat 2%nat - (C 0%nat 1%nat + C 0%nat 2%nat + C 1%nat 2%nat)
   + 3 * (C 3%nat 3%nat + C 4%nat 4%nat + C 5%nat 5%nat)) / 15.
Definition GR (S : mat6) : R :=
  15 / (4 * (S 0%nat 0%nat + S 1%nat 1%nat + S 2%nat 2%nat) - 4 * (S 0%nat 1%nat + S 0%nat 2%nat + S 1%nat 2%nat)
        + 3 * (S 3%nat 3%nat + S 4%nat 4%nat + S 5%nat 5%nat)).
Definition KH (C S : mat6) : R := 1 / 2 * (KV C + KR S).
Definition GH (C S : mat6) : R := 1 / 2 * (GV C + GR S).
(** soec_obj.py:323-327: one row of the table: bulk, Young, shear, Poisson. *)
Definition average_row (K G : R) : list R :=
  [K; 1 / (1 / (3 * G) + 1 / (9 * K)); G; (1 - 3 * G / (3 * K + G)) / 2].
Definition averages (C S : mat6) : list (list R) :=
  [average_row (KV C) (GV C); average_row (KR S) (GR S); average_row (KH C S) (GH C S)].
(** soec_obj.py:329-339 *)
Definition isotropic_velocities (C S : mat6) (density : R) : list R :=
  let B := nth 0 (nth 2 (averages C S) []) 0 in
  let G := nth 2 (nth 2 (averages C S) []) 0 in
  let Vp := sqrt (1000 * (B + 4 * G / 3) / density) in
  let Vs := sqrt (1000 * G / density) in
  [Vs; Vs; Vp].

(** ** SOECOrtho (soec_obj.py:482-580) *)
Section Ortho.
Variable T : tensor4.  (* self.Smat *)
Let s11 := T 0%nat 0%nat 0%nat 0%nat.
Let s22 := T 1%nat 1%nat 1%nat 1%nat.
Let s33 := T 2%nat 2%nat 2%nat 2%nat.
Let s44 := 4 * T 1%nat 2%nat 1%nat 2%nat.
Let s55 := 4 * T 0%nat 2%nat 0%nat 2%nat.
Let s66 := 4 * T 0%nat 1%nat 0%nat 1%nat.
Let s12 := T 0%nat 0%nat 1%nat 1%nat.
Let s13 := T 0%nat 0%nat 2%nat 2%nat.
Let s23 := T 1%nat 1%nat 2%nat 2%nat.
(** soec_obj.py:499-513 *)
Definition ortho_young (theta phi : R) : R :=
  let ct2 := cos theta ^ 2 in let st2 := 1 - ct2 in
  let cf2 := cos phi ^ 2 in let sf2 := 1 - cf2 in
  1 / (ct2^2*s33 + 2*cf2*ct2*s13*st2 + cf2*ct2*s55*st2 + 2*ct2*s23*sf2*st2 + ct2*s44*sf2*st2 + cf2^2*s11*st2^2
       + 2*cf2*s12*sf2*st2^2 + cf2*s66*sf2*st2^2 + s22*sf2^2*st2^2).
(** soec_obj.py:515-524 *)
Definition ortho_compressibility (theta phi : R) : R :=
  let ct2 := cos theta ^ 2 in let cf2 := cos phi ^ 2 in
  1000 * (ct2 * (s13 + s23 + s33) + (cf2 * (s11 + s12 + s13) + (s12 + s22 + s23) * (1 - cf2)) * (1 - ct2)).
(** soec_obj.py:526-553 *)
Definition ortho_shear (theta phi chi : R) : R :=
  let ct := cos theta in let ct2 := ct*ct in let st2 := 1 - ct2 in
  let cf := cos phi in let sf := sin phi in let sf2 := sf*sf in
  let cx := cos chi in let cx2 := cx*cx in let sx := sin chi in let sx2 := 1 - cx2 in
  let r := ct2*ct2*cx2*s44*sf2 + cx2*s44*sf2*st2*st2 + 4*cf^3*ct*cx*(-2*s11 + 2*s12 + s66)*sf*st2*sx
    + 2*cf*ct*cx*sf*(ct2*(s44 - s55) + (4*s13 - 4*s23 - s44 + s55 - 4*s12*sf2 + 4*s22*sf2 - 2*s66*sf2)*st2)*sx
    + s66*sf2*sf2*st2*sx2 + cf^4*st2*(4*ct2*cx2*s11 + s66*sx2)
    + ct2*(2*cx2*(2*s33 + sf2*(-4*s23 - s44 + 2*s22*sf2))*st2 + s55*sf2*sx2)
    + cf^2*(ct2*ct2*cx2*s55 + ct2*(-2*cx2*(4*s13 + s55 - 2*(2*s12 + s66)*sf2)*st2 + s44*sx2)
            + st2*(cx2*s55*st2 + 2*(2*s11 - 4*s12 + 2*s22 - s66)*sf2*sx2)) in
  1 / r.
(** soec_obj.py:555-580 *)
Definition ortho_poisson (theta phi chi : R) : R :=
  let ct := cos theta in let ct2 := ct*ct in let st2 := 1 - ct2 in
  let cf := cos phi in let sf := sin phi in
  let cx := cos chi in let sx := sin chi in
  (-(ct^2*cx^2*s33*st2) - cf^2*cx^2*s13*st2*st2 - cx^2*s23*sf^2*st2*st2 + ct*cx*s44*sf*st2*(ct*cx*sf + cf*sx) -
      ct^2*s23*(ct*cx*sf + cf*sx)^2 - cf^2*s12*st2*(ct*cx*sf + cf*sx)^2 - s22*sf^2*st2*(ct*cx*sf + cf*sx)^2 +
      cf*ct*cx*s55*st2*(cf*ct*cx - sf*sx) - cf*s66*sf*st2*(ct*cx*sf + cf*sx)*(cf*ct*cx - sf*sx) -
      ct^2*s13*(cf*ct*cx - sf*sx)^2 - cf^2*s11*st2*(cf*ct*cx - sf*sx)^2 - s12*sf^2*st2*(cf*ct*cx - sf*sx)^2) /
  (ct^4*s33 + 2*cf^2*ct^2*s13*st2 + cf^2*ct^2*s55*st2 + 2*ct^2*s23*sf^2*st2 + ct^2*s44*sf^2*st2 +
      cf^4*s11*st2*st2 + 2*cf^2*s12*sf^2*st2*st2 + cf^2*s66*sf^2*st2*st2 + s22*sf^4*st2*st2).
End Ortho.

(** ** Christoffel matrix of SOEC.phase_velocity (soec_obj.py:378-396); the
    eigenvalues (np.linalg.eigh) and square roots are taken of [wave_matrix]. *)
Definition divop (l : vec) (i p : nat) : R :=
  match i, p with
  | 0%nat, 0%nat => l 0%nat | 1%nat, 1%nat => l 1%nat | 2%nat, 2%nat => l 2%nat
  | 0%nat, 4%nat => l 2%nat | 1%nat, 3%nat => l 2%nat | 0%nat, 5%nat => l 1%nat
  | 2%nat, 3%nat => l 1%nat | 2%nat, 4%nat => l 0%nat | 1%nat, 5%nat => l 0%nat
  | _, _ => 0
  end.
Definition sum6 (f : nat -> R) : R :=
  f 0%nat + f 1%nat + f 2%nat + f 3%nat + f 4%nat + f 5%nat.
Definition wave_matrix (C : mat6) (l : vec) (i k : nat) : R :=
  sum6 (fun p => divop l i p * sum6 (fun q => (C p q * 1e9) * divop l k q)).
(** soec_obj.py:399-400: one velocity in km/s from one eigenvalue. *)
Definition velocity_of (eigenvalue density : R) : R := sqrt (eigenvalue / density) / 1000.
