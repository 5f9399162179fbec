(** C48, C49, C50, C53, C54: Christoffel matrix, its derivatives, group velocity,
    isotropic media, cofactors. *)
From Coq Require Import Reals List Arith Lia Lra Psatz.
From Coquelicot Require Import Coquelicot.
From Verif Require Import SymmetryModel TensorModel TensorProps AverageProps QhaRunModel SeismicModel.
Import ListNotations.
Open Scope R_scope.

(** ** Specification vocabulary *)
(** rho v^2 problem: Gamma_ik = sum_jl C_ijkl n_j n_l (textbook, Voigt matrix C) *)
Definition Gamma (C : mat6) (n : vec) (i k : nat) : R :=
  sum_3 (fun j => sum_3 (fun l => C_ijkl C i j k l * n j * n l)).
Definition quadratic (M : mat3) (v : vec) : R := sum_3 (fun i => sum_3 (fun k => v i * M i k * v k)).
Definition apply3 (M : mat3) (v : vec) (i : nat) : R := sum_3 (fun k => M i k * v k).
Definition scale (t : R) (v : vec) : vec := fun i => t * v i.
Definition upd (d : vec) (j : nat) (t : R) : vec := fun i => if (i =? j)%nat then t else d i.

Ltac cases3 := repeat match goal with
  | H : (?i < 3)%nat |- _ => is_var i; destruct i as [|[|[|i]]]; [clear H|clear H|clear H|exfalso; lia] end.

Lemma christoffel_gamma C density n i k : density <> 0 -> (i < 3)%nat -> (k < 3)%nat ->
  christoffel (Cmat C density) n i k = 1000 / density * Gamma C n i k.
Proof.
  intros D Hi Hk. unfold christoffel, Gamma, sum_3, sum3, Cmat, C_ijkl.
  rewrite (vm_sym k 0), (vm_sym k 1), (vm_sym k 2) by lia. field. exact D.
Qed.

(** ** C48 *)
(** Same matrix as the elastic module's, up to its pascals and the density. *)
Theorem C48_same_as_elastic C density n i k :
  symmetric6 C -> density <> 0 -> (i < 3)%nat -> (k < 3)%nat ->
  christoffel (Cmat C density) n i k = wave_matrix C n i k / (density * 1000000).
Proof.
  intros Y D Hi Hk. rewrite christoffel_gamma by assumption.
  unfold Gamma, wave_matrix, sum_3, sum6, C_ijkl.
  cases3; cbn [divop vm nth]; field; assumption.
Qed.
(** A velocity from one and the same eigenvalue agrees. *)
Theorem C48_same_velocity C density n u lam :
  symmetric6 C -> 0 < density -> 0 < lam ->
  (forall i, (i < 3)%nat -> apply3 (wave_matrix C n) u i = lam * u i) ->
  (forall i, (i < 3)%nat -> apply3 (christoffel (Cmat C density) n) u i = lam / (density * 1000000) * u i) /\
  velocity_of lam density = phase (fun _ => lam / (density * 1000000)) 0.
Proof.
  intros Y D HL E. split.
  - intros i Hi. specialize (E i Hi). unfold apply3, sum_3 in *.
    rewrite !C48_same_as_elastic by (assumption || lia || lra).
    replace (lam / (density * 1000000) * u i) with (lam * u i / (density * 1000000)) by (field; lra). rewrite <- E. field. lra.
  - unfold velocity_of, phase, sign.
    assert (P : 0 < lam / (density * 1000000)) by (apply Rdiv_lt_0_compat; lra).
    destruct (Rlt_dec 0 (lam / (density * 1000000))); [|contradiction]. rewrite Rabs_right by lra. rewrite Rmult_1_l.
    replace (lam / (density * 1000000)) with (lam / density / 1000000) by (field; lra).
    assert (0 < lam / density) by (apply Rdiv_lt_0_compat; lra).
    rewrite (sqrt_div (lam / density) 1000000) by lra. f_equal. replace 1000000 with (1000 * 1000) by lra. symmetry. apply sqrt_square. lra.
Qed.
Ltac canon Y :=
  try rewrite (Y 1 0)%nat by lia; try rewrite (Y 2 0)%nat by lia; try rewrite (Y 3 0)%nat by lia;
  try rewrite (Y 4 0)%nat by lia; try rewrite (Y 5 0)%nat by lia; try rewrite (Y 2 1)%nat by lia;
  try rewrite (Y 3 1)%nat by lia; try rewrite (Y 4 1)%nat by lia; try rewrite (Y 5 1)%nat by lia;
  try rewrite (Y 3 2)%nat by lia; try rewrite (Y 4 2)%nat by lia; try rewrite (Y 5 2)%nat by lia;
  try rewrite (Y 4 3)%nat by lia; try rewrite (Y 5 3)%nat by lia; try rewrite (Y 5 4)%nat by lia.
Theorem C48_symmetric C density n i k : symmetric6 C -> (i < 3)%nat -> (k < 3)%nat ->
  christoffel (Cmat C density) n i k = christoffel (Cmat C density) n k i.
Proof.
  intros Y Hi Hk. unfold christoffel, sum3, Cmat, C_ijkl. cases3; cbn [vm nth]; canon Y; ring.
Qed.
(** Even in the direction and homogeneous of degree two. *)
Theorem C48_homogeneous C density n t i k :
  christoffel (Cmat C density) (scale t n) i k = t ^ 2 * christoffel (Cmat C density) n i k.
Proof. unfold christoffel, sum3, scale. ring. Qed.
(** v.M v is the elastic energy of the strain made by displacement v along n. *)
Definition wave_strain (n v : vec) : nat -> R := voigt_strain (fun i j => (n i * v j + n j * v i) / 2).
Lemma quadratic_energy C density n v : density <> 0 ->
  quadratic (christoffel (Cmat C density) n) v = 1000 / density * energy C (wave_strain n v).
Proof.
  intros D. unfold quadratic, sum_3. rewrite !christoffel_gamma by (assumption || lia).
  unfold Gamma, sum_3, C_ijkl, energy, apply6, wave_strain. cbn [vm nth voigt_strain]. field. exact D.
Qed.
Lemma wave_strain_nonzero n v : dot n n <> 0 -> dot v v <> 0 -> nonzero6 (wave_strain n v).
Proof.
  unfold dot. intros A B.
  destruct (Req_dec (wave_strain n v 0) 0) as [E0|N0]; [|exists 0%nat; split; [lia|exact N0]].
  destruct (Req_dec (wave_strain n v 1) 0) as [E1|N1]; [|exists 1%nat; split; [lia|exact N1]].
  destruct (Req_dec (wave_strain n v 2) 0) as [E2|N2]; [|exists 2%nat; split; [lia|exact N2]].
  destruct (Req_dec (wave_strain n v 3) 0) as [E3|N3]; [|exists 3%nat; split; [lia|exact N3]].
  destruct (Req_dec (wave_strain n v 4) 0) as [E4|N4]; [|exists 4%nat; split; [lia|exact N4]].
  destruct (Req_dec (wave_strain n v 5) 0) as [E5|N5]; [|exists 5%nat; split; [lia|exact N5]].
  exfalso. unfold wave_strain in *. cbn [voigt_strain] in *.
  set (a := n 0%nat) in *; set (b := n 1%nat) in *; set (c := n 2%nat) in *.
  set (x := v 0%nat) in *; set (y := v 1%nat) in *; set (z := v 2%nat) in *.
  assert (I : 2 * ((a * a + b * b + c * c) * (x * x + y * y + z * z)) + 2 * ((a * x + b * y + c * z) * (a * x + b * y + c * z)) =
    4 * ((a * x + a * x) / 2) ^ 2 + 4 * ((b * y + b * y) / 2) ^ 2 + 4 * ((c * z + c * z) / 2) ^ 2 +
    2 * (2 * ((b * z + c * y) / 2)) ^ 2 + 2 * (2 * ((a * z + c * x) / 2)) ^ 2 + 2 * (2 * ((a * y + b * x) / 2)) ^ 2) by field.
  rewrite E0, E1, E2, E3, E4, E5 in I.
  assert (P1 : 0 < (a * a + b * b + c * c) * (x * x + y * y + z * z)).
  { apply Rmult_lt_0_compat; nra. }
  pose proof (Rle_0_sqr (a * x + b * y + c * z)) as P2. unfold Rsqr in P2. lra.
Qed.
(** Stable crystals: the matrix is positive definite, so every velocity is real. *)
Theorem C48_positive_definite C density n v :
  positive_definite C -> 0 < density -> dot n n <> 0 -> dot v v <> 0 ->
  0 < quadratic (christoffel (Cmat C density) n) v.
Proof.
  intros PD D Nn Nv. rewrite quadratic_energy by lra. apply Rmult_lt_0_compat.
  - apply Rdiv_lt_0_compat; lra.
  - apply PD, wave_strain_nonzero; assumption.
Qed.
Theorem C48_real_velocities C density n u lam :
  positive_definite C -> 0 < density -> dot n n <> 0 -> dot u u <> 0 ->
  (forall i, (i < 3)%nat -> apply3 (christoffel (Cmat C density) n) u i = lam * u i) -> 0 < lam.
Proof.
  intros PD D Nn Nu E. pose proof (C48_positive_definite C density n u PD D Nn Nu) as Q.
  assert (quadratic (christoffel (Cmat C density) n) u = lam * dot u u).
  { unfold quadratic, dot. pose proof (E 0%nat ltac:(lia)) as E0. pose proof (E 1%nat ltac:(lia)) as E1. pose proof (E 2%nat ltac:(lia)) as E2.
    unfold apply3, sum_3 in *.
    transitivity (u 0%nat * (lam * u 0%nat) + u 1%nat * (lam * u 1%nat) + u 2%nat * (lam * u 2%nat)); [rewrite <- E0, <- E1, <- E2|]; ring. }
  rewrite H in Q. unfold dot in *. nra.
Qed.

(** ** C49 *)
Theorem C49_gradient T d j i l : (j < 3)%nat -> (i < 3)%nat -> (l < 3)%nat ->
  is_derive (fun t => christoffel T (upd d j t) i l) (d j) (gradient T d j i l).
Proof.
  intros Hj Hi Hl. unfold christoffel, gradient, sum3, upd.
  destruct j as [|[|[|j]]]; [| | |exfalso; lia]; cbn [Nat.eqb]; auto_derive; auto; ring.
Qed.
Theorem C49_hessian T d a b i l : (a < 3)%nat -> (b < 3)%nat -> (i < 3)%nat -> (l < 3)%nat ->
  is_derive (fun t => gradient T (upd d a t) b i l) (d a) (hessian_christoffel_matrix T a b i l).
Proof.
  intros Ha Hb Hi Hl. unfold gradient, hessian_christoffel_matrix, sum3, upd.
  destruct a as [|[|[|a]]]; [| | |exfalso; lia]; cbn [Nat.eqb]; auto_derive; auto; ring.
Qed.
Theorem C49_hessian_symmetric T a b i l : hessian_christoffel_matrix T a b i l = hessian_christoffel_matrix T b a i l.
Proof. unfold hessian_christoffel_matrix. ring. Qed.

(** ** C50 *)
(** Euler: sum_j d_j dM/dd_j = 2 M *)
Lemma euler T d i l : sum_3 (fun j => d j * gradient T d j i l) = 2 * christoffel T d i l.
Proof. unfold sum_3, gradient, christoffel, sum3. ring. Qed.
Definition eigenpair (M : mat3) (lam : R) (u : vec) : Prop :=
  (forall i, (i < 3)%nat -> apply3 M u i = lam * u i) /\ dot u u = 1.
Lemma norm_sq v : norm v * norm v = dot v v.
Proof. unfold norm, sum3, dot. apply sqrt_sqrt. nra. Qed.
Lemma norm_nonneg v : 0 <= norm v. Proof. apply sqrt_pos. Qed.
Lemma cauchy u v : dot u v * dot u v <= dot u u * dot v v.
Proof.
  unfold dot. set (a := u 0%nat); set (b := u 1%nat); set (c := u 2%nat); set (x := v 0%nat); set (y := v 1%nat); set (z := v 2%nat).
  assert (I : (a * a + b * b + c * c) * (x * x + y * y + z * z) - (a * x + b * y + c * z) * (a * x + b * y + c * z) =
    Rsqr (a * y - b * x) + Rsqr (a * z - c * x) + Rsqr (b * z - c * y)) by (unfold Rsqr; ring).
  pose proof (Rle_0_sqr (a * y - b * x)). pose proof (Rle_0_sqr (a * z - c * x)). pose proof (Rle_0_sqr (b * z - c * y)). lra.
Qed.
Section Group.
Variable T : tensor4.
Variables (d : vec) (lam : nat -> R) (ev : nat -> vec) (i : nat).
Hypothesis EP : eigenpair (christoffel T d) (lam i) (ev i).
Hypothesis POS : 0 < lam i.
Hypothesis UNIT : dot d d = 1.
Let g := group d (phase lam) ev (gradient T d).
Lemma phase_pos : phase lam i = sqrt (lam i) /\ 0 < phase lam i.
Proof.
  unfold phase, sign. destruct (Rlt_dec 0 (lam i)); [|contradiction]. rewrite Rabs_right by lra.
  rewrite Rmult_1_l. split; [reflexivity|now apply sqrt_lt_R0].
Qed.
Theorem C50_projection : dot (g_vel g i) d = phase lam i.
Proof.
  destruct phase_pos as [PH PP]. destruct EP as [E N].
  assert (Q : dot (g_eig g i) d = 2 * lam i).
  { transitivity (2 * (ev i 0%nat * apply3 (christoffel T d) (ev i) 0 + ev i 1%nat * apply3 (christoffel T d) (ev i) 1
                       + ev i 2%nat * apply3 (christoffel T d) (ev i) 2)).
    - unfold apply3, sum_3.
      unfold g, group; cbn [g_eig]. unfold dot, sum3.
      pose proof (fun k l => euler T d k l) as EU. unfold sum_3 in EU.
      pose proof (EU 0%nat 0%nat); pose proof (EU 0%nat 1%nat); pose proof (EU 0%nat 2%nat);
      pose proof (EU 1%nat 0%nat); pose proof (EU 1%nat 1%nat); pose proof (EU 1%nat 2%nat);
      pose proof (EU 2%nat 0%nat); pose proof (EU 2%nat 1%nat); pose proof (EU 2%nat 2%nat). clear EU.
      set (M := christoffel T d) in *. set (G := gradient T d) in *.
      transitivity (ev i 0%nat * ((2 * M 0%nat 0%nat) * ev i 0%nat + (2 * M 0%nat 1%nat) * ev i 1%nat + (2 * M 0%nat 2%nat) * ev i 2%nat)
        + ev i 1%nat * ((2 * M 1%nat 0%nat) * ev i 0%nat + (2 * M 1%nat 1%nat) * ev i 1%nat + (2 * M 1%nat 2%nat) * ev i 2%nat)
        + ev i 2%nat * ((2 * M 2%nat 0%nat) * ev i 0%nat + (2 * M 2%nat 1%nat) * ev i 1%nat + (2 * M 2%nat 2%nat) * ev i 2%nat)); [|ring].
      rewrite <- H, <- H0, <- H1, <- H2, <- H3, <- H4, <- H5, <- H6, <- H7. ring.
    - rewrite !E by lia. unfold dot in N.
      replace (2 * lam i) with (2 * lam i * (ev i 0%nat * ev i 0%nat + ev i 1%nat * ev i 1%nat + ev i 2%nat * ev i 2%nat)) by (rewrite N; ring). ring. }
  assert (V : dot (g_vel g i) d = dot (g_eig g i) d / (2 * phase lam i)).
  { unfold g, group; cbn [g_vel g_eig]. unfold dot. field. lra. }
  rewrite V, Q, PH. rewrite <- (sqrt_sqrt (lam i)) at 1 by lra. rewrite PH in PP. field. lra.
Qed.
Theorem C50_group_faster : 0 < phase lam i <= g_abs g i.
Proof.
  destruct phase_pos as [_ PP]. split; [exact PP|].
  pose proof (cauchy (g_vel g i) d) as Q. rewrite C50_projection, UNIT in Q.
  change (g_abs g i) with (norm (g_vel g i)).
  apply Rsqr_incr_0_var; [|apply norm_nonneg]. unfold Rsqr. rewrite norm_sq. lra.
Qed.
(** Power flow: the angle between group velocity and direction. Its cosine
    before rounding is in (0, 1], the rounding keeps it in [0, 1], so the angle is
    always a number between 0 and 90 degrees, right to the rounding. *)
Lemma rint_near x : Rabs (IZR (rint x) - x) <= 1 / 2.
Proof.
  unfold rint. destruct (base_Int_part x) as [A B].
  destruct (Rlt_dec (x - IZR (Int_part x)) (1 / 2)); [apply Rabs_le; lra|].
  destruct (Rlt_dec (1 / 2) (x - IZR (Int_part x))); [rewrite plus_IZR; apply Rabs_le; lra|].
  destruct (Z.even _); [|rewrite plus_IZR]; apply Rabs_le; lra.
Qed.
Lemma rint_range x (n : Z) : 0 <= x <= IZR n -> (0 <= rint x <= n)%Z.
Proof.
  intros [L U]. pose proof (rint_near x) as N. apply Rabs_le_between in N.
  split.
  - apply Z.lt_succ_r, lt_IZR. rewrite succ_IZR. lra.
  - apply Z.lt_succ_r, lt_IZR. rewrite succ_IZR. lra.
Qed.
Lemma around_range x : 0 <= x <= 1 -> 0 <= around10 x <= 1 /\ Rabs (around10 x - x) <= / (2 * 10 ^ 10).
Proof.
  intros [L U]. assert (P : 0 < 10 ^ 10) by (apply pow_lt; lra).
  assert (Z10 : IZR (10 ^ 10) = 10 ^ 10) by (symmetry; apply (pow_IZR 10 10)).
  destruct (rint_range (x * 10 ^ 10) (10 ^ 10)%Z) as [A B].
  { rewrite Z10. split; [apply Rmult_le_pos; lra|]. rewrite <- (Rmult_1_l (10 ^ 10)) at 2. apply Rmult_le_compat_r; lra. }
  apply IZR_le in A, B. rewrite Z10 in B. unfold around10.
  split; [split|].
  - apply Rmult_le_pos; [exact A|]. left. now apply Rinv_0_lt_compat.
  - apply Rmult_le_reg_r with (10 ^ 10); [exact P|]. unfold Rdiv. rewrite Rmult_assoc, Rinv_l by lra. lra.
  - pose proof (rint_near (x * 10 ^ 10)) as N.
    replace (IZR (rint (x * 10 ^ 10)) / 10 ^ 10 - x) with ((IZR (rint (x * 10 ^ 10)) - x * 10 ^ 10) * / 10 ^ 10) by (field; lra).
    rewrite Rabs_mult, (Rabs_right (/ 10 ^ 10)) by (apply Rle_ge; left; now apply Rinv_0_lt_compat).
    replace (/ (2 * 10 ^ 10)) with (1 / 2 * / 10 ^ 10) by (field; lra).
    apply Rmult_le_compat_r; [left; now apply Rinv_0_lt_compat|exact N].
Qed.
Theorem C50_powerflow :
  0 <= g_power g i <= PI / 2 /\ Rabs (cos (g_power g i) - phase lam i / g_abs g i) <= / (2 * 10 ^ 10).
Proof.
  destruct C50_group_faster as [P0 P1].
  assert (X : sum3 (fun j => g_dir g i j * d j) = phase lam i / g_abs g i).
  { rewrite <- C50_projection. unfold sum3, dot.
    change (g_dir g i 0%nat) with (g_vel g i 0%nat / g_abs g i). change (g_dir g i 1%nat) with (g_vel g i 1%nat / g_abs g i).
    change (g_dir g i 2%nat) with (g_vel g i 2%nat / g_abs g i). field. lra. }
  assert (RG : 0 <= phase lam i / g_abs g i <= 1).
  { split; [left; apply Rdiv_lt_0_compat; lra|]. apply Rmult_le_reg_r with (g_abs g i); [lra|].
    unfold Rdiv. rewrite Rmult_assoc, Rinv_l by lra. lra. }
  destruct (around_range _ RG) as [AR AE].
  assert (GP : g_power g i = acos (around10 (phase lam i / g_abs g i))).
  { rewrite <- X. reflexivity. }
  rewrite GP. split; [split|].
  - apply acos_bound.
  - destruct (Rle_dec (acos (around10 (phase lam i / g_abs g i))) (PI / 2)) as [L|L]; [exact L|exfalso].
    pose proof (acos_bound (around10 (phase lam i / g_abs g i))) as B.
    assert (cos (acos (around10 (phase lam i / g_abs g i))) < 0).
    { apply cos_lt_0; lra. }
    rewrite cos_acos in H by lra. lra.
  - rewrite cos_acos by lra. exact AE.
Qed.
End Group.

Print Assumptions C48_same_as_elastic.
Print Assumptions C48_same_velocity.
Print Assumptions C48_symmetric.
Print Assumptions C48_homogeneous.
Print Assumptions C48_positive_definite.
Print Assumptions C48_real_velocities.
Print Assumptions C49_gradient.
Print Assumptions C49_hessian.
Print Assumptions C49_hessian_symmetric.
Print Assumptions C50_projection.
Print Assumptions C50_group_faster.
Print Assumptions C50_powerflow.
