(** C53: isotropic media; instances of C48-C50 and C74. *)
From Coq Require Import Reals List Arith Lia Lra Psatz Permutation.
From Coquelicot Require Import Coquelicot.
From Verif Require Import SymmetryModel TensorModel TensorProps AverageProps QhaRunModel SeismicModel SeismicProps SeismicLinear SeismicDerivProps.
Import ListNotations.
Open Scope R_scope.

(** ** Order of the modes *)
Theorem C53_modes_sorted w :
  Permutation (argsort w) [0; 1; 2]%nat /\
  w (nth 0 (argsort w) 0%nat) <= w (nth 1 (argsort w) 0%nat) <= w (nth 2 (argsort w) 0%nat).
Proof.
  unfold argsort. cbn [fold_left insert_by].
  repeat (match goal with |- context [Rlt_dec ?a ?b] => destruct (Rlt_dec a b) end; cbn [insert_by fold_left nth]);
  (split; [|lra]);
  first [apply Permutation_refl | apply perm_swap | apply perm_skip, perm_swap
        | apply (Permutation_trans (l' := [1; 0; 2]%nat)); [apply perm_skip, perm_swap|apply perm_swap]
        | apply (Permutation_trans (l' := [0; 2; 1]%nat)); [apply perm_swap|apply perm_skip, perm_swap]
        | apply Permutation_sym, (Permutation_cons_append [1; 2]%nat 0%nat)
        | apply (Permutation_cons_append [0; 1]%nat 2%nat)
        | apply (Permutation_trans (l' := [2; 0; 1]%nat)); [apply perm_skip, perm_swap|apply (Permutation_cons_append [0; 1]%nat 2%nat)] ].
Qed.

(** What numpy.linalg.eigh promises for a symmetric matrix. *)
Definition solves (eigh : mat3 -> (nat -> R) * mat3) (M : mat3) : Prop :=
  let '(w, v) := eigh M in
  (forall i, (i < 3)%nat -> eigenpair M (w i) (fun k => v k i)) /\
  orthonormal3 (fun k => v k 0%nat) (fun k => v k 1%nat) (fun k => v k 2%nat).

Lemma argsort_range w i : (i < 3)%nat -> (nth i (argsort w) 0 < 3)%nat.
Proof.
  intros Hi. destruct (C53_modes_sorted w) as [P _].
  assert (L : length (argsort w) = 3%nat) by (rewrite (Permutation_length P); reflexivity).
  assert (I : In (nth i (argsort w) 0%nat) [0; 1; 2]%nat).
  { apply (Permutation_in _ P). apply nth_In. lia. }
  cbn [In] in I. destruct I as [E|[E|[E|[]]]]; rewrite <- E; lia.
Qed.
(** The sorted modes are eigenpairs, slowest first. *)
Theorem C53_modes_are_eigenpairs eigh M i : solves eigh M -> (i < 3)%nat ->
  eigenpair M (fst (sorted_eigen eigh M) i) (snd (sorted_eigen eigh M) i) /\
  ((i < 2)%nat -> fst (sorted_eigen eigh M) i <= fst (sorted_eigen eigh M) (S i)).
Proof.
  unfold solves, sorted_eigen. destruct (eigh M) as [w v]. cbn [fst snd]. intros [E _] Hi. split.
  - apply (E _ (argsort_range w i Hi)).
  - intros H2. destruct (C53_modes_sorted w) as [_ [A B]]. destruct i as [|[|i]]; [exact A|exact B|lia].
Qed.

Section Isotropic.
Variables (K G rho : R) (C S : mat6).
Hypothesis HK : 0 < K.
Hypothesis HG : 0 < G.
Hypothesis HR : 0 < rho.
Hypothesis HC : forall p q, (p < 6)%nat -> (q < 6)%nat -> C p q = isotropic_C K G p q.
Hypothesis INV : inverse6 C S.
Let T := Cmat C rho.
(** squares of the two velocities, in km^2/s^2 for GPa and kg/m^3 *)
Definition VS2 := 1000 * G / rho.
Definition VP2 := 1000 * (K + 4 * G / 3) / rho.
Let e := VP2 - VS2.

Lemma VS2_pos : 0 < VS2. Proof. unfold VS2. apply Rdiv_lt_0_compat; lra. Qed.
Lemma e_pos : 0 < e.
Proof. unfold e, VP2, VS2. replace (1000 * (K + 4 * G / 3) / rho - 1000 * G / rho) with (1000 * (K + G / 3) / rho) by (field; lra). apply Rdiv_lt_0_compat; lra. Qed.
Ltac d3 i := destruct i as [|[|[|i]]]; [| | |exfalso; lia].
Lemma T_iso i j k l : (i < 3)%nat -> (j < 3)%nat -> (k < 3)%nat -> (l < 3)%nat ->
  T i j k l = (e - VS2) * delta i j * delta k l + VS2 * (delta i k * delta j l + delta i l * delta j k).
Proof.
  intros Hi Hj Hk Hl. unfold T, Cmat, C_ijkl. unfold e, VP2, VS2, delta.
  d3 i; d3 j; d3 k; d3 l; cbn [vm nth Nat.eqb]; rewrite HC by lia; cbn [isotropic_C]; field; lra.
Qed.
Lemma iso_christoffel n i k : (i < 3)%nat -> (k < 3)%nat ->
  christoffel T n i k = VS2 * dot n n * delta i k + e * n i * n k.
Proof.
  intros Hi Hk. unfold christoffel, sum3. rewrite !T_iso by lia. unfold delta, dot.
  d3 i; d3 k; cbn [Nat.eqb]; ring.
Qed.
Lemma iso_gradient n j i k : (j < 3)%nat -> (i < 3)%nat -> (k < 3)%nat ->
  gradient T n j i k = 2 * VS2 * n j * delta i k + e * (delta i j * n k + n i * delta j k).
Proof.
  intros Hj Hi Hk. unfold gradient, sum3. rewrite !T_iso by lia. unfold delta, dot.
  d3 i; d3 j; d3 k; cbn [Nat.eqb]; ring.
Qed.
Lemma iso_hessian a b k l : (a < 3)%nat -> (b < 3)%nat -> (k < 3)%nat -> (l < 3)%nat ->
  hessian_christoffel_matrix T a b k l = 2 * VS2 * delta a b * delta k l + e * (delta a k * delta b l + delta a l * delta b k).
Proof.
  intros Ha Hb Hk Hl. unfold hessian_christoffel_matrix. rewrite !T_iso by lia. unfold delta.
  d3 a; d3 b; d3 k; d3 l; cbn [Nat.eqb]; ring.
Qed.
Lemma iso_apply n u i : (i < 3)%nat -> apply3 (christoffel T n) u i = VS2 * dot n n * u i + e * dot n u * n i.
Proof.
  intros Hi. unfold apply3, sum_3. rewrite !iso_christoffel by lia. unfold delta, dot. d3 i; cbn [Nat.eqb]; ring.
Qed.

Variable n : vec.
Hypothesis UNIT : dot n n = 1.
(** Every displacement along the direction is a longitudinal wave, every one
    across it a transverse wave. *)
Theorem C53_waves i : (i < 3)%nat ->
  apply3 (christoffel T n) n i = VP2 * n i /\
  (forall t, dot n t = 0 -> apply3 (christoffel T n) t i = VS2 * t i).
Proof.
  intros Hi. split.
  - rewrite iso_apply, UNIT by exact Hi. unfold e. ring.
  - intros t Ht. rewrite iso_apply, UNIT, Ht by exact Hi. ring.
Qed.
(** and there is no other wave. *)
Theorem C53_only_waves lam u : eigenpair (christoffel T n) lam u ->
  (lam = VS2 /\ dot n u = 0) \/ (lam = VP2 /\ dot n u * dot n u = 1 /\ forall i, (i < 3)%nat -> u i = dot n u * n i).
Proof.
  intros [E N]. set (s := dot n u).
  assert (EQ : forall i, (i < 3)%nat -> (lam - VS2) * u i = e * s * n i).
  { intros i Hi. specialize (E i Hi). rewrite iso_apply, UNIT in E by exact Hi. fold s in E. lra. }
  pose proof (EQ 0%nat ltac:(lia)) as E0. pose proof (EQ 1%nat ltac:(lia)) as E1. pose proof (EQ 2%nat ltac:(lia)) as E2.
  pose proof e_pos as EP. unfold dot in N, UNIT.
  assert (S1 : (lam - VS2) = e * s * s).
  { transitivity ((lam - VS2) * u 0%nat * u 0%nat + (lam - VS2) * u 1%nat * u 1%nat + (lam - VS2) * u 2%nat * u 2%nat).
    - transitivity ((lam - VS2) * (u 0%nat * u 0%nat + u 1%nat * u 1%nat + u 2%nat * u 2%nat)); [rewrite N; ring|ring].
    - rewrite E0, E1, E2. unfold s, dot. ring. }
  assert (S2 : (lam - VS2) * s = e * s).
  { transitivity ((lam - VS2) * u 0%nat * n 0%nat + (lam - VS2) * u 1%nat * n 1%nat + (lam - VS2) * u 2%nat * n 2%nat).
    - unfold s, dot. ring.
    - rewrite E0, E1, E2. transitivity (e * s * (n 0%nat * n 0%nat + n 1%nat * n 1%nat + n 2%nat * n 2%nat)); [ring|rewrite UNIT; ring]. }
  destruct (Req_dec s 0) as [Z|NZ].
  - left. rewrite Z in S1. split; [lra|exact Z].
  - right. assert (LV : lam - VS2 = e) by (apply Rmult_eq_reg_r with s; [exact S2|exact NZ]).
    split; [unfold e in LV; lra|]. split.
    + rewrite LV in S1. apply Rmult_eq_reg_l with e; [|lra]. lra.
    + intros i Hi. specialize (EQ i Hi). rewrite LV in EQ. apply Rmult_eq_reg_l with e; [|lra]. lra.
Qed.
(** The reported isotropic velocities. *)
Lemma iso_bulk : bulk_modulus C S rho = K /\ shear_average C S = G.
Proof.
  destruct (C29_isotropic K G C S 0 0 0 HK HG HC INV) as (A & B & _ & D & F & _).
  unfold bulk_modulus, shear_average. rewrite D, F. split; [|field].
  fold (KR S). rewrite B. unfold KV in A.
  replace (einsum_iijj (fun i j k l => Cmat C rho i j k l * rho / 1000)) with (einsum_iijj (C_ijkl C)).
  - rewrite A. field.
  - unfold einsum_iijj, sum3, Cmat. field. lra.
Qed.
Theorem C53_reported : isotropic_velocity C S rho 0%nat = sqrt VS2 /\ isotropic_velocity C S rho 1%nat = sqrt VS2 /\
  isotropic_velocity C S rho 2%nat = sqrt VP2.
Proof.
  destruct iso_bulk as [A B]. unfold isotropic_velocity. rewrite A, B. auto.
Qed.
(** Whatever right eigen-solver is used, the three sorted phase velocities are
    the three reported isotropic velocities: relative velocities are one. *)
Theorem C53_velocities eigh i : solves eigh (christoffel T n) -> (i < 3)%nat ->
  phase (fst (sorted_eigen eigh (christoffel T n))) i = isotropic_velocity C S rho i.
Proof.
  intros SO Hi. pose proof e_pos as EP. pose proof VS2_pos as VP.
  set (lam := fst (sorted_eigen eigh (christoffel T n))).
  assert (SUM : exists w v, eigh (christoffel T n) = (w, v) /\ w 0%nat + w 1%nat + w 2%nat = 3 * VS2 + e /\
     forall k, (k < 3)%nat -> w k = VS2 \/ w k = VP2).
  { unfold solves in SO. destruct (eigh (christoffel T n)) as [w v]. destruct SO as [E O]. exists w, v. split; [reflexivity|].
    assert (W : forall k, (k < 3)%nat -> w k = VS2 + e * dot n (fun j => v j k) * dot n (fun j => v j k)).
    { intros k Hk. destruct (C53_only_waves _ _ (E k Hk)) as [[A B]|(A & B & _)].
      - rewrite B, A. ring.
      - rewrite Rmult_assoc, B, A. unfold e. ring. }
    split; [|intros k Hk; destruct (C53_only_waves _ _ (E k Hk)) as [[A B]|(A & B & _)]; auto].
    rewrite (W 0%nat), (W 1%nat), (W 2%nat) by lia.
    pose proof (columns_orthonormal _ _ _ O) as CO. cbn beta in CO.
    assert (PARS : dot n (fun j => v j 0%nat) * dot n (fun j => v j 0%nat) + dot n (fun j => v j 1%nat) * dot n (fun j => v j 1%nat)
       + dot n (fun j => v j 2%nat) * dot n (fun j => v j 2%nat) = 1).
    { rewrite <- UNIT. unfold dot.
      transitivity (sum_3 (fun i => sum_3 (fun j => n i * n j * (v i 0%nat * v j 0%nat + v i 1%nat * v j 1%nat + v i 2%nat * v j 2%nat)))).
      - unfold sum_3. ring.
      - unfold sum_3. rewrite !CO by lia. unfold delta. cbn [Nat.eqb]. ring. }
    replace (3 * VS2 + e) with (3 * VS2 + e * (dot n (fun j => v j 0%nat) * dot n (fun j => v j 0%nat) + dot n (fun j => v j 1%nat) * dot n (fun j => v j 1%nat)
       + dot n (fun j => v j 2%nat) * dot n (fun j => v j 2%nat))) by (rewrite PARS; ring). ring. }
  destruct SUM as (w & v & EW & SW & CW).
  assert (LV : lam 0%nat = VS2 /\ lam 1%nat = VS2 /\ lam 2%nat = VP2).
  { unfold lam, sorted_eigen. rewrite EW. cbn [fst]. destruct (C53_modes_sorted w) as [P [A B]].
    assert (SS : w (nth 0 (argsort w) 0%nat) + w (nth 1 (argsort w) 0%nat) + w (nth 2 (argsort w) 0%nat) = 3 * VS2 + e).
    { pose proof (Permutation_map w P) as PM. pose proof (Permutation_length P) as PL.
      destruct (argsort w) as [|x [|y [|z [|]]]]; try discriminate. cbn [nth].
      assert (FR : forall l l', Permutation l l' -> fold_right Rplus 0 l = fold_right Rplus 0 l').
      { induction 1; cbn; lra. }
      apply FR in PM. cbn in PM. lra. }
    pose proof (CW _ (argsort_range w 0 ltac:(lia))) as C0. pose proof (CW _ (argsort_range w 1 ltac:(lia))) as C1.
    pose proof (CW _ (argsort_range w 2 ltac:(lia))) as C2. unfold e in *.
    destruct C0, C1, C2; repeat split; lra. }
  destruct C53_reported as (R0 & R1 & R2). destruct LV as (L0 & L1 & L2).
  assert (PV : 0 < lam i).
  { destruct i as [|[|[|i]]]; [rewrite L0|rewrite L1|rewrite L2|lia]; unfold e in *; lra. }
  destruct (phase_pos lam i PV) as [-> _].
  destruct i as [|[|[|i]]]; [rewrite L0, R0|rewrite L1, R1|rewrite L2, R2|lia]; reflexivity.
Qed.

(** ** Group velocity and enhancement: no anisotropy, no focusing *)
Variables (lam : nat -> R) (ev : nat -> vec) (i : nat).
Hypothesis EP : eigenpair (christoffel T n) (lam i) (ev i).
Let g := group n (phase lam) ev (gradient T n).
Lemma mode_pos : 0 < lam i.
Proof. pose proof VS2_pos. pose proof e_pos. unfold e in *. destruct (C53_only_waves _ _ EP) as [[-> _]|[-> _]]; lra. Qed.
Theorem C53_group_velocity j : (j < 3)%nat -> g_vel g i j = phase lam i * n j.
Proof.
  intros Hj. destruct (phase_pos lam i mode_pos) as [PH PP].
  assert (Q : g_eig g i j = 2 * lam i * n j).
  { unfold g, group; cbn [g_eig]. unfold sum3. rewrite !iso_gradient by lia.
    transitivity (2 * VS2 * n j * dot (ev i) (ev i) + 2 * e * dot n (ev i) * ev i j).
    - unfold dot, delta. d3 j; cbn [Nat.eqb]; ring.
    - rewrite (proj2 EP). destruct (C53_only_waves _ _ EP) as [[-> Z]|(-> & SQ & U)].
      + rewrite Z. ring.
      + rewrite (U j Hj). replace (2 * e * dot n (ev i) * (dot n (ev i) * n j)) with (2 * e * (dot n (ev i) * dot n (ev i)) * n j) by ring.
        rewrite SQ. unfold e. ring. }
  change (g_vel g i j) with (g_eig g i j / (2 * phase lam i)). rewrite Q.
  assert (LL : lam i = phase lam i * phase lam i).
  { rewrite PH, sqrt_sqrt by (left; exact mode_pos). reflexivity. }
  rewrite LL at 1. field. lra.
Qed.
Theorem C53_group_speed : g_abs g i = phase lam i /\ g_power g i = 0.
Proof.
  destruct (phase_pos lam i mode_pos) as [_ PP].
  assert (A : g_abs g i = phase lam i).
  { change (g_abs g i) with (norm (g_vel g i)). unfold norm, sum3. rewrite !C53_group_velocity by lia.
    replace (phase lam i * n 0%nat * (phase lam i * n 0%nat) + phase lam i * n 1%nat * (phase lam i * n 1%nat) + phase lam i * n 2%nat * (phase lam i * n 2%nat))
      with (phase lam i * phase lam i * dot n n) by (unfold dot; ring).
    rewrite UNIT, Rmult_1_r. apply sqrt_square. lra. }
  split; [exact A|].
  change (g_power g i) with (acos (around10 (sum3 (fun j => g_vel g i j / g_abs g i * n j)))).
  replace (sum3 (fun j => g_vel g i j / g_abs g i * n j)) with 1.
  2:{ unfold sum3. rewrite !C53_group_velocity, A by lia. rewrite <- UNIT. unfold dot. field. lra. }
  replace (around10 1) with 1; [apply acos_1|].
  unfold around10. assert (Z10 : IZR (10 ^ 10) = 10 ^ 10) by (symmetry; apply (pow_IZR 10 10)).
  assert (P : 0 < 10 ^ 10) by (apply pow_lt; lra).
  rewrite Rmult_1_l, <- Z10.
  assert (RI : rint (IZR (10 ^ 10)) = (10 ^ 10)%Z).
  { pose proof (rint_near (IZR (10 ^ 10))) as N. apply Rabs_le_between in N.
    assert (LO : IZR (rint (IZR (10 ^ 10))) < IZR (10 ^ 10 + 1)) by (rewrite (plus_IZR (10 ^ 10) 1); lra).
    assert (HI : IZR (10 ^ 10) < IZR (rint (IZR (10 ^ 10)) + 1)) by (rewrite (plus_IZR (rint (IZR (10 ^ 10))) 1); lra).
    apply lt_IZR in LO. apply lt_IZR in HI. lia. }
  rewrite RI. rewrite Z10. field.
Qed.
(** Enhancement factor one in every mode, the degenerate ones included. *)
Variables (pinv inv : mat3 -> mat3).
Let A : mat3 := fun j k => lam i * (if (j =? k)%nat then 1 else 0) - christoffel T n j k.
Hypothesis MP : moore_penrose A (pinv A).
Let H := hessian_eigen pinv (hessian_christoffel_matrix T) (christoffel T n) (gradient T n) lam ev.
Hypothesis IV : inverts inv (direction_gradient H (phase lam) (g_abs g) (g_vel g) i).

Lemma pinv_of s : s <> 0 -> same3 A (fun j k => s * n j * n k) -> same3 (pinv A) (fun j k => / s * n j * n k).
Proof.
  intros NZ E. apply (penrose_unique A); [exact MP|].
  apply (penrose_same (fun j k => s * n j * n k)); [now apply same3_sym|].
  assert (X : forall c x y, c * (n 0%nat * n 0%nat) * x * y + c * (n 1%nat * n 1%nat) * x * y + c * (n 2%nat * n 2%nat) * x * y = c * x * y).
  { intros c x y. transitivity (c * dot n n * x * y); [unfold dot; ring|rewrite UNIT; ring]. }
  repeat split; intros j k Hj Hk; unfold mul3, tr, sum_3.
  - transitivity (s * / s * s * dot n n * dot n n * n j * n k); [unfold dot; ring|rewrite UNIT; field; exact NZ].
  - transitivity (/ s * s * / s * dot n n * dot n n * n j * n k); [unfold dot; ring|rewrite UNIT; field; exact NZ].
  - field. exact NZ.
  - field. exact NZ.
Qed.
Lemma pinv_off s : s <> 0 -> same3 A (fun j k => s * (delta j k - n j * n k)) -> same3 (pinv A) (fun j k => / s * (delta j k - n j * n k)).
Proof.
  intros NZ E. apply (penrose_unique A); [exact MP|].
  apply (penrose_same (fun j k => s * (delta j k - n j * n k))); [now apply same3_sym|].
  set (Q := fun j k => delta j k - n j * n k).
  assert (QQ : forall j k, (j < 3)%nat -> (k < 3)%nat -> Q j 0%nat * Q 0%nat k + Q j 1%nat * Q 1%nat k + Q j 2%nat * Q 2%nat k = Q j k).
  { intros j k Hj Hk. unfold Q. transitivity (delta j k - 2 * n j * n k + dot n n * n j * n k).
    - unfold delta, dot. d3 j; d3 k; cbn [Nat.eqb]; ring.
    - rewrite UNIT. ring. }
  assert (QS : forall j k, (j < 3)%nat -> (k < 3)%nat -> Q j k = Q k j).
  { intros j k Hj Hk. unfold Q, delta. rewrite Nat.eqb_sym. ring. }
  change (moore_penrose (fun j k => s * Q j k) (fun j k => / s * Q j k)).
  assert (M1 : same3 (mul3 (fun j k => s * Q j k) (fun j k => / s * Q j k)) Q).
  { intros j k Hj Hk. rewrite <- (QQ j k Hj Hk). unfold mul3, sum_3. field. exact NZ. }
  assert (M2 : same3 (mul3 (fun j k => / s * Q j k) (fun j k => s * Q j k)) Q).
  { intros j k Hj Hk. rewrite <- (QQ j k Hj Hk). unfold mul3, sum_3. field. exact NZ. }
  repeat split.
  - intros j k Hj Hk. unfold mul3 at 1, sum_3. rewrite !M2 by lia. rewrite <- (QQ j k Hj Hk). ring.
  - intros j k Hj Hk. unfold mul3 at 1, sum_3. rewrite !M1 by lia. rewrite <- (QQ j k Hj Hk). ring.
  - intros j k Hj Hk. unfold tr. rewrite !M1 by assumption. now apply QS.
  - intros j k Hj Hk. unfold tr. rewrite !M2 by assumption. now apply QS.
Qed.
Lemma iso_hess a b : (a < 3)%nat -> (b < 3)%nat -> H i a b = 2 * lam i * delta a b.
Proof.
  intros Ha Hb. pose proof e_pos as EQ.
  assert (DV : forall c m, (c < 3)%nat -> (m < 3)%nat -> sum3 (fun l => gradient T n c m l * ev i l) =
     2 * VS2 * n c * ev i m + e * (delta m c * dot n (ev i) + n m * ev i c)).
  { intros c m Hc Hm. unfold sum3. rewrite !iso_gradient by lia. unfold delta, dot. d3 c; d3 m; cbn [Nat.eqb]; ring. }
  assert (HV : sum3 (fun k => sum3 (fun l => hessian_christoffel_matrix T a b k l * ev i l) * ev i k) =
     2 * VS2 * delta a b * dot (ev i) (ev i) + 2 * e * ev i a * ev i b).
  { unfold sum3. rewrite !iso_hessian by lia. unfold delta, dot. d3 a; d3 b; cbn [Nat.eqb]; ring. }
  unfold H, hessian_eigen. fold A. rewrite HV. clear HV. rewrite (proj2 EP).
  unfold sum3 at 1. unfold sum3 at 1 4 7.
  rewrite !DV by lia.
  destruct (C53_only_waves _ _ EP) as [[LV Z]|(LV & SQ & U)].
  - assert (EA : same3 A (fun j k => (- e) * n j * n k)).
    { intros j k Hj Hk. unfold A. rewrite iso_christoffel, UNIT, LV by assumption. unfold delta. ring. }
    pose proof (pinv_of (- e) ltac:(lra) EA) as PI. rewrite !PI by lia. rewrite LV, Z. clear DV EA PI.
    assert (NU : n 0%nat * ev i 0%nat + n 1%nat * ev i 1%nat + n 2%nat * ev i 2%nat = 0) by exact Z.
    assert (NN : n 0%nat * n 0%nat + n 1%nat * n 1%nat + n 2%nat * n 2%nat = 1) by exact UNIT.
    set (B := fun c m => 2 * VS2 * n c * ev i m + e * (delta m c * 0 + n m * ev i c)).
    assert (BN : forall c, B c 0%nat * n 0%nat + B c 1%nat * n 1%nat + B c 2%nat * n 2%nat = e * ev i c).
    { intros c. unfold B. transitivity (2 * VS2 * n c * (n 0%nat * ev i 0%nat + n 1%nat * ev i 1%nat + n 2%nat * ev i 2%nat) +
        e * ev i c * (n 0%nat * n 0%nat + n 1%nat * n 1%nat + n 2%nat * n 2%nat)); [ring|rewrite NU, NN; ring]. }
    transitivity (2 * VS2 * delta a b * 1 + 2 * e * ev i a * ev i b + 2 * (/ - e *
      ((B a 0%nat * n 0%nat + B a 1%nat * n 1%nat + B a 2%nat * n 2%nat) * (B b 0%nat * n 0%nat + B b 1%nat * n 1%nat + B b 2%nat * n 2%nat)))).
    { unfold B. ring. }
    rewrite !BN. field. lra.
  - assert (EA : same3 A (fun j k => e * (delta j k - n j * n k))).
    { intros j k Hj Hk. unfold A. rewrite iso_christoffel, UNIT, LV by assumption. unfold e. unfold delta. ring. }
    pose proof (pinv_off e ltac:(lra) EA) as PI. rewrite !PI by lia. clear DV EA PI.
    assert (NN : n 0%nat * n 0%nat + n 1%nat * n 1%nat + n 2%nat * n 2%nat = 1) by exact UNIT.
    set (s := dot n (ev i)) in *.
    rewrite (U 0%nat), (U 1%nat), (U 2%nat), (U a), (U b) by lia.
    set (B := fun c m => 2 * VS2 * n c * (s * n m) + e * (delta m c * s + n m * (s * n c))).
    (* component of B c across n *)
    assert (BN : forall c m, (c < 3)%nat -> (m < 3)%nat -> B c 0%nat * (delta 0 m - n 0%nat * n m) + B c 1%nat * (delta 1 m - n 1%nat * n m) + B c 2%nat * (delta 2 m - n 2%nat * n m)
        = e * s * (delta c m - n c * n m)).
    { intros c m Hc Hm. unfold B.
      transitivity ((2 * VS2 + e) * n c * s * (1 - (n 0%nat * n 0%nat + n 1%nat * n 1%nat + n 2%nat * n 2%nat)) * n m + e * s * (delta c m - n c * n m)).
      - unfold delta. d3 c; d3 m; cbn [Nat.eqb]; ring.
      - rewrite NN. ring. }
    transitivity (2 * VS2 * delta a b * 1 + 2 * e * (s * n a) * (s * n b) + 2 * (/ e *
      ((B a 0%nat * (delta 0 0 - n 0%nat * n 0%nat) + B a 1%nat * (delta 1 0 - n 1%nat * n 0%nat) + B a 2%nat * (delta 2 0 - n 2%nat * n 0%nat)) * B b 0%nat
      + (B a 0%nat * (delta 0 1 - n 0%nat * n 1%nat) + B a 1%nat * (delta 1 1 - n 1%nat * n 1%nat) + B a 2%nat * (delta 2 1 - n 2%nat * n 1%nat)) * B b 1%nat
      + (B a 0%nat * (delta 0 2 - n 0%nat * n 2%nat) + B a 1%nat * (delta 1 2 - n 1%nat * n 2%nat) + B a 2%nat * (delta 2 2 - n 2%nat * n 2%nat)) * B b 2%nat))).
    { unfold B. ring. }
    rewrite !(BN a) by lia.
    transitivity (2 * VS2 * delta a b * 1 + 2 * e * (s * s) * n a * n b + 2 * (s *
      (B b 0%nat * (delta 0 a - n 0%nat * n a) + B b 1%nat * (delta 1 a - n 1%nat * n a) + B b 2%nat * (delta 2 a - n 2%nat * n a)))).
    { unfold delta. clear BN. d3 a; cbn [Nat.eqb]; field; lra. }
    rewrite (BN b a) by lia.
    transitivity (2 * VS2 * delta a b + 2 * e * (s * s) * (n a * n b) + 2 * (s * s) * e * (delta b a - n b * n a)); [ring|].
    rewrite SQ, LV. unfold delta. rewrite (Nat.eqb_sym b a). unfold e. ring.
Qed.
Theorem C53_no_focusing : enhancement_of inv n H (phase lam) (g_abs g) (g_vel g) i = 1.
Proof.
  destruct (phase_pos lam i mode_pos) as [PH PP]. destruct C53_group_speed as [GA _].
  assert (LL : lam i = phase lam i * phase lam i).
  { rewrite PH, sqrt_sqrt by (left; exact mode_pos). reflexivity. }
  assert (D : forall a b, (a < 3)%nat -> (b < 3)%nat -> direction_gradient H (phase lam) (g_abs g) (g_vel g) i a b = delta a b - n a * n b).
  { intros a b Ha Hb. unfold direction_gradient, sum3. rewrite GA, !C53_group_velocity, !iso_hess by lia. rewrite LL.
    unfold delta. set (p := phase lam i) in *. clearbody p. d3 a; d3 b; cbn [Nat.eqb]; field; lra. }
  unfold enhancement_of.
  assert (V : forall a, (a < 3)%nat -> sum3 (fun b => cofactor inv (direction_gradient H (phase lam) (g_abs g) (g_vel g) i) a b * n b) = n a).
  { intros a Ha. unfold sum3. rewrite !(C54_textbook inv) by (exact IV || lia).
    unfold cofactor_textbook, minor.
    d3 a; cbn [Nat.eqb Nat.add pow]; rewrite !D by lia; unfold delta; cbn [Nat.eqb]; ring. }
  unfold norm. unfold sum3 at 1. rewrite !V by lia.
  replace (sqrt _) with 1; [field|]. symmetry. rewrite <- sqrt_1 at 1. f_equal. exact UNIT.
Qed.
End Isotropic.

(** Both modules report the same three isotropic velocities. *)
Theorem C53_same_reported C S density i : density <> 0 -> (i < 3)%nat ->
  isotropic_velocity C S density i = nth i (isotropic_velocities C S density) 0.
Proof.
  intros D Hi. unfold isotropic_velocity, isotropic_velocities, averages, average_row. cbn [nth].
  assert (B : bulk_modulus C S density = KH C S).
  { unfold bulk_modulus, KH, KV, KR.
    replace (einsum_iijj (fun i j k l => Cmat C density i j k l * density / 1000)) with (einsum_iijj (C_ijkl C));
      [lra|unfold einsum_iijj, sum3, Cmat; field; exact D]. }
  assert (G : shear_average C S = GH C S) by (unfold shear_average, GH; field).
  rewrite B, G. destruct i as [|[|[|i]]]; [reflexivity|reflexivity|reflexivity|lia].
Qed.

(** ** Instances *)
Definition ex : vec := fun i => match i with 0%nat => 1 | _ => 0 end.
Lemma ex_unit : dot ex ex = 1. Proof. unfold dot, ex. ring. Qed.
Definition C31 := isotropic_C 3 1.
(** eigenvalues as eigh returns them, here out of order; columns y, x, z *)
Definition eigh31 : mat3 -> (nat -> R) * mat3 := fun _ =>
  (fun i => match i with 1%nat => 13 / 3 | _ => 1 end,
   fun k i => match k, i with 1%nat, 0%nat | 0%nat, 1%nat | 2%nat, 2%nat => 1 | _, _ => 0 end).
Lemma solves31 : solves eigh31 (christoffel (Cmat C31 1000) ex).
Proof.
  unfold solves, eigh31. split.
  - intros i Hi. split.
    + intros j Hj. rewrite (iso_apply 3 1 1000 C31); try lra; try lia; try reflexivity.
      unfold VS2, VP2, dot, ex. cases3; cbn; field.
    + unfold dot. cases3; cbn; ring.
  - unfold orthonormal3, dot. repeat split; ring.
Qed.
Example C53_instance : inverse6 C31 (isotropic_S 3 1) /\ solves eigh31 (christoffel (Cmat C31 1000) ex) /\
  phase (fst (sorted_eigen eigh31 (christoffel (Cmat C31 1000) ex))) 2%nat = sqrt (13 / 3) /\
  snd (sorted_eigen eigh31 (christoffel (Cmat C31 1000) ex)) 2%nat 0%nat = 1.
Proof.
  pose proof (proj1 (proj2 C29_instance)) as I. split; [exact I|]. split; [exact solves31|]. split.
  - rewrite (C53_velocities 3 1 1000 C31 (isotropic_S 3 1)) by (lra || lia || reflexivity || exact I || exact ex_unit || exact solves31).
    rewrite (proj2 (proj2 (C53_reported 3 1 1000 C31 (isotropic_S 3 1) ltac:(lra) ltac:(lra) ltac:(lra) ltac:(reflexivity) I))).
    f_equal. unfold VP2. field.
  - unfold sorted_eigen, eigh31. cbn [snd]. unfold argsort. cbn [fold_left insert_by].
    repeat (match goal with |- context [Rlt_dec ?a ?b] => destruct (Rlt_dec a b); try (exfalso; lra) end; cbn [insert_by fold_left nth]); reflexivity.
Qed.
(** A transverse mode and its inverse *)
Definition ey : vec := fun i => match i with 1%nat => 1 | _ => 0 end.
Example C53_transverse_instance :
  let pinv : mat3 -> mat3 := fun _ j k => / (1 - 13 / 3) * ex j * ex k in
  eigenpair (christoffel (Cmat C31 1000) ex) 1 ey /\
  moore_penrose (fun j k => 1 * (if (j =? k)%nat then 1 else 0) - christoffel (Cmat C31 1000) ex j k) (pinv (fun _ _ => 0)) /\
  g_vel (group ex (phase (fun _ => 1)) (fun _ => ey) (gradient (Cmat C31 1000) ex)) 0%nat 0%nat = 1.
Proof.
  intros pinv. assert (EP : eigenpair (christoffel (Cmat C31 1000) ex) 1 ey).
  { split; [|unfold dot, ey; ring]. intros i Hi. rewrite (iso_apply 3 1 1000 C31); try lra; try lia; try reflexivity.
    unfold VS2, VP2, dot, ex, ey. cases3; cbn; field. }
  split; [exact EP|]. split.
  - apply (penrose_same (fun j k => (1 - 13 / 3) * ex j * ex k)).
    + intros i k Hi Hk. rewrite (iso_christoffel 3 1 1000 C31); try lra; try lia; try reflexivity.
      unfold VS2, VP2, dot, ex, delta. cases3; cbn; field.
    + unfold pinv. repeat split; intros i k Hi Hk; unfold mul3, tr, sum_3, ex; cases3; field.
  - rewrite (C53_group_velocity 3 1 1000 C31 ltac:(lra) ltac:(lra) ltac:(lra) ltac:(reflexivity) ex ex_unit (fun _ => 1) (fun _ => ey) 0%nat EP 0%nat ltac:(lia)).
    unfold phase, sign, ex. destruct (Rlt_dec 0 1); [|lra]. rewrite Rabs_R1, sqrt_1. ring.
Qed.
(** C50: the same wave; C48: a stable crystal *)
Example C50_instance : eigenpair (christoffel (Cmat C31 1000) ex) 1 ey /\ 0 < 1 /\ dot ex ex = 1.
Proof. split; [apply C53_transverse_instance|]. split; [lra|exact ex_unit]. Qed.
Example C48_instance : symmetric6 C31 /\ positive_definite C31 /\ dot ex ex <> 0 /\
  (forall i, (i < 3)%nat -> apply3 (wave_matrix C31 ex) ey i = 1000000000 * ey i).
Proof.
  destruct C29_instance as (A & B & D). split; [exact A|]. split; [exact D|]. split; [rewrite ex_unit; lra|].
  intros i Hi. pose proof (proj1 C53_transverse_instance) as [E _]. specialize (E i Hi).
  unfold apply3, sum_3 in *. rewrite !(C48_same_as_elastic C31 1000) in E by (assumption || lia || lra). lra.
Qed.
(** C74: longitudinal waves of any isotropic medium, in any direction. *)
Section Longitudinal.
Variables (K G rho : R) (n : vec).
Hypothesis HK : 0 < K.
Hypothesis HG : 0 < G.
Hypothesis HR : 0 < rho.
Hypothesis UNIT : dot n n = 1.
Let T := Cmat (isotropic_C K G) rho.
Let l b t := VP2 K G rho * dot (upd n b t) (upd n b t).
Let u b t : vec := fun k => upd n b t k / norm (upd n b t).
Lemma norm_dot v : norm v = sqrt (dot v v). Proof. reflexivity. Qed.
Lemma longitudinal_mode b : (b < 3)%nat ->
  smooth_mode T n b (l b) (u b) (2 * VP2 K G rho * n b) (fun k => delta k b - n k * n b).
Proof.
  intros Hb.
  assert (AT : forall k, upd n b (n b) k = n k).
  { intros k. unfold upd. destruct (k =? b)%nat eqn:Q; [|reflexivity]. apply Nat.eqb_eq in Q. now subst. }
  assert (D1 : forall k, (k < 3)%nat -> is_derive (fun t => upd n b t k) (n b) (delta k b)).
  { intros k Hk. unfold upd, delta. destruct (k =? b)%nat; auto_derive; auto. }
  assert (DD : is_derive (fun t => dot (upd n b t) (upd n b t)) (n b) (2 * n b)).
  { eapply derive_eq; [apply (derive_sum3 (fun k t => upd n b t k * upd n b t k) (n b)); intros k Hk; apply derive_mult; apply D1; exact Hk|].
    unfold sum3. rewrite !AT. realeq. unfold delta. destruct b as [|[|[|b]]]; [| | |exfalso; lia]; cbn [Nat.eqb]; ring. }
  assert (N1 : norm n = 1) by (rewrite norm_dot, UNIT; apply sqrt_1).
  split.
  - assert (LP : locally (n b) (fun t => 0 < dot (upd n b t) (upd n b t))).
    { assert (CO : continuous (fun t => dot (upd n b t) (upd n b t)) (n b)).
      { apply (ex_derive_continuous (V := R_NormedModule)). eexists; exact DD. }
      apply (CO (fun y => 0 < y)). assert (P : 0 < dot (upd n b (n b)) (upd n b (n b))).
      { unfold dot. rewrite !AT. unfold dot in UNIT. rewrite UNIT. lra. }
      apply (open_gt 0 _ P). }
    revert LP. apply filter_imp. intros t Ht. set (q := upd n b t) in *.
    assert (NP : 0 < norm q) by (rewrite norm_dot; now apply sqrt_lt_R0).
    assert (NS : norm q * norm q = dot q q) by apply norm_sq.
    split.
    + intros i Hi. unfold T. rewrite (iso_apply K G rho (isotropic_C K G)); try assumption; try reflexivity. unfold l, u. fold q.
      assert (QU : dot q (fun k => q k / norm q) = norm q).
      { transitivity (dot q q / norm q); [unfold dot; field; lra|]. rewrite <- NS. field. lra. }
      rewrite QU, <- NS. field. lra.
    + unfold u. fold q. transitivity (dot q q / (norm q * norm q)); [unfold dot; field; lra|]. rewrite <- NS. field. lra.
  - unfold l. eapply derive_eq; [apply (derive_mult (fun _ => VP2 K G rho) (fun t => dot (upd n b t) (upd n b t))); [apply (is_derive_const (V := R_NormedModule))|exact DD]|].
    realeq. change (zero (G := R_NormedModule)) with 0. ring.
  - intros k Hk. unfold u.
    eapply derive_eq.
    + apply (unit_derivative (fun c t => upd n b t c) (n b) (fun c => delta c b) k Hk D1).
      replace (norm (fun c => upd n b (n b) c)) with (norm n) by (unfold norm, sum3; now rewrite !AT). lra.
    + replace (norm (fun c => upd n b (n b) c)) with (norm n) by (unfold norm, sum3; now rewrite !AT).
      rewrite N1. unfold sum3. rewrite !AT. realeq. unfold delta. destruct b as [|[|[|b]]]; [| | |exfalso; lia]; cbn [Nat.eqb]; field.
Qed.
Lemma longitudinal_simple : simple_eigenvalue (christoffel T n) (VP2 K G rho) n.
Proof.
  intros w Hw. exists (dot n w). intros i Hi. specialize (Hw i Hi).
  unfold T in Hw. rewrite (iso_apply K G rho (isotropic_C K G)), UNIT in Hw by (assumption || reflexivity).
  pose proof (e_pos K G rho HK HG HR) as EP. apply Rmult_eq_reg_l with (VP2 K G rho - VS2 G rho); [|lra]. lra.
Qed.
End Longitudinal.
Example C74_instance :
  let A : mat3 := fun j k => 13 / 3 * (if (j =? k)%nat then 1 else 0) - christoffel (Cmat C31 1000) ex j k in
  let P : mat3 := fun j k => / (10 / 3) * (delta j k - ex j * ex k) in
  symmetric_christoffel (Cmat C31 1000) /\ moore_penrose A P /\
  simple_eigenvalue (christoffel (Cmat C31 1000) ex) (13 / 3) ex /\
  (forall b, (b < 3)%nat -> exists l u dl du, smooth_mode (Cmat C31 1000) ex b l u dl du /\ l (ex b) = 13 / 3 /\ forall k, u (ex b) k = ex k).
Proof.
  intros A P. assert (V : VP2 3 1 1000 = 13 / 3) by (unfold VP2; field). split; [|split; [|split]].
  - intros m i k Hi Hk. apply C48_symmetric; [apply C29_instance|exact Hi|exact Hk].
  - apply (penrose_same (fun j k => 10 / 3 * (delta j k - ex j * ex k))).
    + intros i k Hi Hk. unfold A. rewrite (iso_christoffel 3 1 1000 C31); try lra; try lia; try reflexivity.
      unfold VS2, VP2, dot, ex, delta. cases3; cbn; field.
    + unfold P. repeat split; intros i k Hi Hk; unfold mul3, tr, sum_3, ex, delta; cases3; cbn [Nat.eqb]; field.
  - rewrite <- V. apply longitudinal_simple; (lra || exact ex_unit).
  - intros b Hb. do 4 eexists. split; [apply (longitudinal_mode 3 1 1000 ex); (exact ex_unit || exact Hb || lra)|].
    assert (AT : forall k, upd ex b (ex b) k = ex k).
    { intros k. unfold upd. destruct (k =? b)%nat eqn:Q; [|reflexivity]. apply Nat.eqb_eq in Q. now subst. }
    cbn beta. split.
    + rewrite V. unfold dot. rewrite !AT. unfold ex. field.
    + intros k. rewrite AT. replace (norm (upd ex b (ex b))) with 1; [field|].
      unfold norm, sum3. rewrite !AT. symmetry. rewrite <- sqrt_1 at 1. f_equal. unfold ex. ring.
Qed.

Print Assumptions C53_modes_sorted.
Print Assumptions C53_modes_are_eigenpairs.
Print Assumptions C53_waves.
Print Assumptions C53_only_waves.
Print Assumptions C53_reported.
Print Assumptions C53_velocities.
Print Assumptions C53_group_velocity.
Print Assumptions C53_group_speed.
Print Assumptions C53_no_focusing.
Print Assumptions C53_same_reported.
