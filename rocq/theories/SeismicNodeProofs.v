(** What one row of a seismic table says about the three waves along a direction:
    the specification used by C106, and that the calculator's rows meet it. *)
From Coq Require Import Reals String List Arith ZArith Lia Lra Psatz Permutation.
From Verif Require Import SymmetryModel TensorModel TensorProps AverageProps SoecReportProps QhaRunModel SeismicModel SeismicProps SeismicObjProps SeismicIsoProps.
From Verif Require SeismicTableModel SeismicTableProps.
Import ListNotations.
Open Scope string_scope.
Open Scope list_scope.
Open Scope R_scope.

(** ** Specification *)
(** Velocities in km/s, moduli in GPa, densities in kg/m^3. *)
Definition polar (theta phi : R) : vec := fun i =>
  match i with 0%nat => sin theta * cos phi | 1%nat => sin theta * sin phi | 2%nat => cos theta | _ => 0 end.
(** A plane wave along n with displacement u: rho v^2 u_i = c_ijkl n_j n_l u_k. *)
Definition travels (c : mat6) (rho : R) (n u : vec) (v : R) : Prop :=
  0 < v /\ dot u u = 1 /\
  forall i, (i < 3)%nat -> 1000 * sum_3 (fun j => sum_3 (fun k => sum_3 (fun l => C_ijkl c i j k l * n j * n l * u k))) = rho * v ^ 2 * u i.
(** Its energy: rho v g_j = c_ijkl u_i u_k n_l. *)
Definition carries (c : mat6) (rho : R) (n u : vec) (v : R) (g : vec) : Prop :=
  forall j, (j < 3)%nat -> rho * v * g j = 1000 * sum_3 (fun i => sum_3 (fun k => sum_3 (fun l => C_ijkl c i j k l * u i * u k * n l))).
(** The velocity of mode i (the third is the longitudinal one) in the Hill average of
    the crystal. *)
Definition average_velocity (c Sm : mat6) (rho : R) (i : nat) (x : R) : Prop :=
  let K := mean (bulk_voigt c) (bulk_reuss Sm) in let G := mean (shear_voigt c) (shear_reuss Sm) in
  0 < x /\ rho * x ^ 2 = 1000 * (if (i <? 2)%nat then G else K + 4 / 3 * G).
(** The fourteen numbers of a row. *)
Definition wave_row (c Sm : mat6) (rho theta phi : R) (i : nat) (u : vec) (v : R) (l : list R) : Prop :=
  let n := polar theta phi in
  travels c rho n u v /\
  exists x g s psi A, average_velocity c Sm rho i x /\ carries c rho n u v g /\
  0 < s /\ s ^ 2 = dot g g /\ v <= s /\ dot g n = v /\
  0 <= psi <= 90 /\ Rabs (cos (psi * PI / 180) - v / s) <= / (2 * 10 ^ 10) /\
  l = [theta; phi; v; 100 * (v / x - 1); u 0%nat; u 1%nat; u 2%nat; s; 100 * (s / x - 1); g 0%nat; g 1%nat; g 2%nat; psi; A].

(** ** Proofs *)
Lemma average_is c Sm rho i : symmetric6 c -> positive_definite c -> inverse6 c Sm -> 0 < rho -> (i < 3)%nat ->
  average_velocity c Sm rho i (isotropic_velocity c Sm rho i).
Proof.
  intros Y P I D Hi. destruct (voigt_reuss c Sm) as (E1 & E2 & E3 & E4).
  pose proof (C29_bulk_order c Sm Y P I) as (K0 & K1 & _). pose proof (C29_shear_order c Sm Y P I) as (G0 & G1 & _).
  assert (KK : bulk_modulus c Sm rho = mean (bulk_voigt c) (bulk_reuss Sm)).
  { rewrite <- E1, <- E3. unfold bulk_modulus, mean, KV, KR.
    replace (einsum_iijj (fun i j k l => Cmat c rho i j k l * rho / 1000)) with (einsum_iijj (C_ijkl c)); [lra|unfold einsum_iijj, sum3, Cmat; field; lra]. }
  assert (GG : shear_average c Sm = mean (shear_voigt c) (shear_reuss Sm)).
  { rewrite <- E2, <- E4. unfold shear_average, mean. field. }
  assert (KP : 0 < mean (bulk_voigt c) (bulk_reuss Sm)) by (rewrite <- E1, <- E3; unfold mean; unfold KH in K1; lra).
  assert (GP : 0 < mean (shear_voigt c) (shear_reuss Sm)) by (rewrite <- E2, <- E4; unfold mean; unfold GH in G1; lra).
  unfold average_velocity. cbv zeta. unfold isotropic_velocity. rewrite KK, GG.
  set (K := mean (bulk_voigt c) _) in *. set (G := mean (shear_voigt c) _) in *. clearbody K G.
  assert (Q : forall z, 0 < z -> 0 < sqrt (1000 * z / rho) /\ rho * sqrt (1000 * z / rho) ^ 2 = 1000 * z).
  { intros z Hz. assert (0 < 1000 * z / rho) by (apply Rdiv_lt_0_compat; lra). split; [now apply sqrt_lt_R0|].
    rewrite pow2_sqrt by lra. field. lra. }
  destruct i as [|[|[|i]]]; [| | |lia]; cbn [Nat.ltb Nat.leb]; [apply Q; exact GP|apply Q; exact GP|].
  replace (K + 4 / 3 * G) with (K + 4 * G / 3) by field. apply Q. lra.
Qed.
Lemma polar_vector t p i : (i < 3)%nat -> vector t p i = polar t p i.
Proof. intros Hi. destruct i as [|[|[|i]]]; [reflexivity|reflexivity|reflexivity|lia]. Qed.
Lemma orthonormal_sorted eigh M : solves eigh M ->
  orthonormal3 (snd (sorted_eigen eigh M) 0%nat) (snd (sorted_eigen eigh M) 1%nat) (snd (sorted_eigen eigh M) 2%nat).
Proof.
  unfold solves, sorted_eigen. destruct (eigh M) as [w v]. cbn [snd]. intros [_ O].
  destruct (C53_modes_sorted w) as [P _]. pose proof (Permutation_length P) as L.
  destruct (argsort w) as [|x [|y [|z [|? ?]]]]; try discriminate L. cbn [nth].
  assert (ND : NoDup [x; y; z]) by (apply (Permutation_NoDup (Permutation_sym P)); repeat constructor; cbn; lia).
  assert (X : forall k, In k [x; y; z] -> (k < 3)%nat) by (intros k Hk; apply (Permutation_in _ P) in Hk; cbn in Hk; lia).
  pose proof (X x ltac:(cbn; tauto)) as Hx. pose proof (X y ltac:(cbn; tauto)) as Hy. pose proof (X z ltac:(cbn; tauto)) as Hz.
  assert (N1 : x <> y /\ x <> z /\ y <> z).
  { inversion ND as [|? ? A B]; subst. inversion B as [|? ? A' B']; subst. cbn in A, A'. repeat split; intros ->; tauto. }
  destruct O as (O1 & O2 & O3 & O4 & O5 & O6).
  assert (CM : forall a b : vec, dot a b = dot b a) by (intros; unfold dot; ring).
  destruct x as [|[|[|x]]]; try lia; destruct y as [|[|[|y]]]; try lia; destruct z as [|[|[|z]]]; try lia;
    repeat split; (assumption || (rewrite CM; assumption)).
Qed.

Section Node.
Variable eigh : mat3 -> (nat -> R) * mat3.
Variables pinv inv : mat3 -> mat3.
Variables (c Sm : mat6) (rho theta phi : R).
Hypothesis Y : symmetric6 c.
Hypothesis PD : positive_definite c.
Hypothesis I : inverse6 c Sm.
Hypothesis D : 0 < rho.
Notation n := (vector theta phi).
Hypothesis SO : solves eigh (christoffel (Cmat c rho) n).
Let lam := lam_at eigh c rho n.
Let ev := ev_at eigh c rho n.

Lemma unit_n : dot n n = 1. Proof. apply (proj1 (C30_unit theta phi 0)). Qed.
Lemma mode_pair i : (i < 3)%nat -> eigenpair (christoffel (Cmat c rho) n) (lam i) (ev i).
Proof. intros Hi. exact (proj1 (C53_modes_are_eigenpairs eigh _ i SO Hi)). Qed.
Lemma mode_positive i : (i < 3)%nat -> 0 < lam i.
Proof.
  intros Hi. destruct (mode_pair i Hi) as [E N]. apply (C48_real_velocities c rho n (ev i) (lam i) PD D); [rewrite unit_n; lra|rewrite N; lra|exact E].
Qed.
Lemma mode_travels i : (i < 3)%nat -> travels c rho (polar theta phi) (ev i) (phase lam i).
Proof.
  intros Hi. destruct (mode_pair i Hi) as [E N]. pose proof (mode_positive i Hi) as L.
  assert (PH : phase lam i = sqrt (lam i) /\ 0 < phase lam i) by (apply phase_pos; exact L). destruct PH as [PH PP].
  split; [exact PP|]. split; [exact N|]. intros k Hk. specialize (E k Hk).
  assert (Q : phase lam i ^ 2 = lam i) by (rewrite PH, pow2_sqrt; lra). rewrite Q.
  unfold apply3, sum_3 in E. rewrite !christoffel_gamma in E by (lra || lia).
  replace (rho * lam i * ev i k) with (rho * (lam i * ev i k)) by ring. rewrite <- E. unfold Gamma, sum_3.
  rewrite <- !(polar_vector theta phi) by lia. field. lra.
Qed.
Lemma mode_carries i : (i < 3)%nat -> carries c rho (polar theta phi) (ev i) (phase lam i) (g_vel (group_at eigh c rho n) i).
Proof.
  intros Hi j Hj. pose proof (mode_positive i Hi) as L.
  assert (PH : phase lam i = sqrt (lam i) /\ 0 < phase lam i) by (apply phase_pos; exact L). destruct PH as [_ PP].
  assert (G : g_vel (group_at eigh c rho n) i j = g_eig (group_at eigh c rho n) i j / (2 * phase lam i)) by reflexivity. rewrite G.
  assert (GE : g_eig (group_at eigh c rho n) i j = 2 * (1000 / rho) * sum_3 (fun a => sum_3 (fun k => sum_3 (fun l => C_ijkl c a j k l * ev i a * ev i k * polar theta phi l)))).
  { change (g_eig (group_at eigh c rho n) i j) with (sum3 (fun k => ev i k * sum3 (fun l => gradient (Cmat c rho) n j k l * ev i l))).
    unfold gradient, sum3, sum_3, Cmat. rewrite <- !(polar_vector theta phi) by lia. set (q := n). clearbody q. generalize (ev i); intros u. unfold C_ijkl.
    destruct j as [|[|[|j]]]; [| | |lia]; cbn [vm nth]; canon Y; field; lra. }
  rewrite GE. field. lra.
Qed.
Lemma mode_row i l : (i < 3)%nat -> row eigh pinv inv c Sm rho (spherical_direction c rho theta phi) i = Ok l ->
  wave_row c Sm rho theta phi i (ev i) (phase lam i) l.
Proof.
  intros Hi E. destruct (C55_row eigh pinv inv c Sm rho theta phi i) as (l' & E' & V). rewrite E in E'. injection E' as <-. cbv zeta in V.
  split; [now apply mode_travels|].
  pose proof (mode_positive i Hi) as L. pose proof (mode_pair i Hi) as EP. pose proof unit_n as U.
  pose proof (C50_projection (Cmat c rho) n lam ev i EP L) as P1.
  pose proof (C50_group_faster (Cmat c rho) n lam ev i EP L U) as [P2 P3].
  pose proof (C50_powerflow (Cmat c rho) n lam ev i EP L U) as [[P4 P5] P6].
  fold (group_at eigh c rho n) in P1, P3, P4, P5, P6.
  pose proof PI_RGT_0 as PI0.
  exists (isotropic_velocity c Sm rho i), (g_vel (group_at eigh c rho n) i), (g_abs (group_at eigh c rho n) i), (180 * g_power (group_at eigh c rho n) i / PI), (enhancement_at eigh pinv inv c rho n i).
  split; [now apply average_is|]. split; [now apply mode_carries|].
  change (group n (phase lam) ev (gradient (Cmat c rho) n)) with (group_at eigh c rho n) in *.
  split; [lra|]. split.
  { change (g_abs (group_at eigh c rho n) i) with (norm (g_vel (group_at eigh c rho n) i)). cbn [pow]. rewrite Rmult_1_r. apply norm_sq. }
  split; [exact P3|]. split.
  { rewrite <- P1. unfold dot. rewrite !(polar_vector theta phi) by lia. reflexivity. }
  split; [split|].
  - apply Rmult_le_pos; [lra|]. left. now apply Rinv_0_lt_compat.
  - apply Rmult_le_reg_r with PI; [exact PI0|]. replace (180 * g_power (group_at eigh c rho n) i / PI * PI) with (180 * g_power (group_at eigh c rho n) i) by (field; lra). lra.
  - split; [|exact V]. replace (180 * g_power (group_at eigh c rho n) i / PI * PI / 180) with (g_power (group_at eigh c rho n) i) by (field; lra). exact P6.
Qed.
Lemma modes_ordered : orthonormal3 (ev 0%nat) (ev 1%nat) (ev 2%nat) /\ phase lam 0%nat <= phase lam 1%nat <= phase lam 2%nat.
Proof.
  split; [exact (orthonormal_sorted eigh _ SO)|].
  assert (X : forall i, (i < 2)%nat -> phase lam i <= phase lam (S i)).
  { intros i Hi. assert (H0 : phase lam i = sqrt (lam i) /\ 0 < phase lam i) by (apply phase_pos, mode_positive; lia).
    assert (H1 : phase lam (S i) = sqrt (lam (S i)) /\ 0 < phase lam (S i)) by (apply phase_pos, mode_positive; lia).
    rewrite (proj1 H0), (proj1 H1). apply sqrt_le_1_alt. apply (proj2 (C53_modes_are_eigenpairs eigh _ i SO ltac:(lia)) Hi). }
  split; apply X; lia.
Qed.
End Node.

(** The rows of a mode, one for each node. *)
Lemma mode_rows_at eigh pinv inv c Sm rho ntheta nphi i : (2 <= ntheta)%nat -> (2 <= nphi)%nat ->
  exists rows, SeismicTableModel.mode_rows eigh pinv inv c Sm rho ntheta nphi i = Ok rows /\ List.length rows = (ntheta * nphi)%nat /\
  forall t p, (t < ntheta)%nat -> (p < nphi)%nat ->
    row eigh pinv inv c Sm rho (spherical_direction c rho (PI / 2 * (INR t / (INR ntheta - 1))) (2 * PI * (INR p / (INR nphi - 1)))) i = Ok (nth (t * nphi + p) rows []).
Proof.
  intros T P. destruct (C55_rows ntheta nphi 0 0 T P ltac:(lia) ltac:(lia)) as (pts & SP & LP & _).
  destruct (SeismicTableProps.all_ok_rows eigh pinv inv c Sm rho pts i) as (rows & E & L & _ & V).
  exists rows. unfold SeismicTableModel.mode_rows. rewrite SP. cbn [bind]. split; [exact E|]. split; [congruence|].
  intros t p Ht Hp. destruct (C55_rows ntheta nphi t p T P Ht Hp) as (pts' & SP' & _ & N). rewrite SP in SP'. injection SP' as <-.
  exact (V _ _ _ _ N).
Qed.
(** A single node along one of the angles: the spacing divides by zero. *)
Lemma mode_rows_single eigh pinv inv c Sm rho ntheta nphi i : (1 <= ntheta)%nat -> (1 <= nphi)%nat -> ntheta = 1%nat \/ nphi = 1%nat ->
  SeismicTableModel.mode_rows eigh pinv inv c Sm rho ntheta nphi i = Raises "ZeroDivisionError"%string.
Proof.
  intros T P H. unfold SeismicTableModel.mode_rows, sphere. destruct ntheta as [|nt]; [lia|]. destruct nphi as [|np]; [lia|].
  cbn [seq flat_map map app visit]. unfold node.
  destruct (S nt - 1 =? 0)%nat eqn:E1; [reflexivity|]. destruct (S np - 1 =? 0)%nat eqn:E2; [reflexivity|].
  apply Nat.eqb_neq in E1, E2. lia.
Qed.
(** No node at all. *)
Lemma mode_rows_none eigh pinv inv c Sm rho ntheta nphi i : ntheta = 0%nat \/ nphi = 0%nat ->
  SeismicTableModel.mode_rows eigh pinv inv c Sm rho ntheta nphi i = Ok [].
Proof.
  intros H. unfold SeismicTableModel.mode_rows, sphere. replace (flat_map _ _) with (@nil (nat * nat)); [reflexivity|].
  destruct H as [->| ->]; [reflexivity|]. symmetry. induction (seq 0 ntheta) as [|x l IH]; [reflexivity|exact IH].
Qed.

(** ** Isotropic media *)
(** The same velocity along every direction, with the energy along it; relative
    velocities and the power flow angle are zero, a longitudinal wave moves along the
    direction and the others across it. *)
Definition isotropic_row (K G rho theta phi : R) (i : nat) (l : list R) : Prop :=
  let n := polar theta phi in
  exists v (u : vec) A, 0 < v /\ rho * v ^ 2 = 1000 * (if (i <? 2)%nat then G else K + 4 / 3 * G) /\ dot u u = 1 /\
  (if (i <? 2)%nat then dot n u = 0 else dot n u * dot n u = 1) /\
  l = [theta; phi; v; 0; u 0%nat; u 1%nat; u 2%nat; v; 0; v * n 0%nat; v * n 1%nat; v * n 2%nat; 0; A].
Lemma iso_row eigh pinv inv K G rho c Sm theta phi i l : 0 < K -> 0 < G -> 0 < rho ->
  (forall p q, (p < 6)%nat -> (q < 6)%nat -> c p q = isotropic_C K G p q) -> inverse6 c Sm ->
  solves eigh (christoffel (Cmat c rho) (vector theta phi)) -> (i < 3)%nat ->
  row eigh pinv inv c Sm rho (spherical_direction c rho theta phi) i = Ok l -> isotropic_row K G rho theta phi i l.
Proof.
  intros HK HG HR HC I SO Hi E. destruct (C55_row eigh pinv inv c Sm rho theta phi i) as (l' & E' & V). rewrite E in E'. injection E' as <-. cbv zeta in V.
  set (n := vector theta phi) in *. pose proof (proj1 (C30_unit theta phi 0)) as U. fold n in U.
  pose proof (proj1 (C53_modes_are_eigenpairs eigh _ i SO Hi)) as EP. fold (lam_at eigh c rho n) in EP. fold (ev_at eigh c rho n) in EP.
  pose proof (C53_velocities K G rho c Sm HK HG HR HC I n U eigh i SO Hi) as PV. fold (lam_at eigh c rho n) in PV.
  destruct (C53_group_speed K G rho c HK HG HR HC n U (lam_at eigh c rho n) (ev_at eigh c rho n) i EP) as (GA & GP).
  pose proof (C53_group_velocity K G rho c HK HG HR HC n U (lam_at eigh c rho n) (ev_at eigh c rho n) i EP) as GV.
  destruct (C53_reported K G rho c Sm HK HG HR HC I) as (R0 & R1 & R2).
  fold (group_at eigh c rho n) in GA, GP, GV.
  set (x := isotropic_velocity c Sm rho i) in *.
  assert (S2 : 0 < VS2 G rho) by (unfold VS2; apply Rdiv_lt_0_compat; lra).
  assert (P2 : VS2 G rho < VP2 K G rho).
  { apply Rminus_gt_0_lt. unfold VS2, VP2. replace (1000 * (K + 4 * G / 3) / rho - 1000 * G / rho) with (1000 * (K + G / 3) / rho) by (field; lra). apply Rdiv_lt_0_compat; lra. }
  assert (X : 0 < x /\ rho * x ^ 2 = 1000 * (if (i <? 2)%nat then G else K + 4 / 3 * G)).
  { unfold x. destruct i as [|[|[|i]]]; [rewrite R0|rewrite R1|rewrite R2|lia]; cbn [Nat.ltb Nat.leb];
    (split; [apply sqrt_lt_R0; lra|]; rewrite pow2_sqrt by lra; unfold VS2, VP2; field; lra). }
  destruct X as (X0 & X1). exists x, (ev_at eigh c rho n i), (enhancement_at eigh pinv inv c rho n i).
  split; [exact X0|]. split; [exact X1|]. split; [exact (proj2 EP)|]. split.
  - assert (LV : lam_at eigh c rho n i = x ^ 2).
    { rewrite <- PV. assert (Q : 0 < lam_at eigh c rho n i) by (destruct (C53_only_waves K G rho c HK HG HR HC n U _ _ EP) as [[-> _]|[-> _]]; lra).
      rewrite (proj1 (phase_pos _ _ Q)), pow2_sqrt; lra. }
    assert (PN : dot (polar theta phi) (ev_at eigh c rho n i) = dot n (ev_at eigh c rho n i)).
    { unfold dot, n. rewrite !(polar_vector theta phi) by lia. reflexivity. }
    rewrite PN.
    assert (LE : rho * lam_at eigh c rho n i = 1000 * (if (i <? 2)%nat then G else K + 4 / 3 * G)) by (rewrite LV; exact X1).
    assert (LS : rho * VS2 G rho = 1000 * G) by (unfold VS2; field; lra).
    assert (LP : rho * VP2 K G rho = 1000 * (K + 4 / 3 * G)) by (unfold VP2; field; lra).
    destruct (C53_only_waves K G rho c HK HG HR HC n U _ _ EP) as [[L W]|(L & W & _)]; rewrite L in LE;
    destruct i as [|[|[|i]]]; cbn [Nat.ltb Nat.leb] in *; try lia; (exact W || (exfalso; lra)).
  - rewrite V, GA, GP, PV, !GV, PV by lia. unfold n. rewrite !(polar_vector theta phi) by lia.
    replace (x / x) with 1 by (field; lra). replace (100 * (1 - 1)) with 0 by ring. replace (180 * 0 / PI) with 0 by (field; apply PI_neq0). reflexivity.
Qed.

(** ** Unstable crystals *)
(** With a displacement of negative energy, the slowest velocity is negative. *)
Lemma negative_mode eigh M (x : vec) : solves eigh M -> quadratic M x < 0 -> phase (fst (sorted_eigen eigh M)) 0%nat < 0.
Proof.
  intros SO Q. set (lam := fst (sorted_eigen eigh M)). set (ev := snd (sorted_eigen eigh M)).
  assert (EP : forall i, (i < 3)%nat -> eigenpair M (lam i) (ev i) /\ ((i < 2)%nat -> lam i <= lam (S i))) by (intros i Hi; now apply C53_modes_are_eigenpairs).
  assert (O : orthonormal3 (ev 0%nat) (ev 1%nat) (ev 2%nat)) by now apply orthonormal_sorted.
  pose proof (columns_orthonormal _ _ _ O) as CO.
  assert (ME : forall i j, (i < 3)%nat -> (j < 3)%nat -> M i j = lam 0%nat * ev 0%nat i * ev 0%nat j + lam 1%nat * ev 1%nat i * ev 1%nat j + lam 2%nat * ev 2%nat i * ev 2%nat j).
  { intros i j Hi Hj.
    destruct (EP 0%nat ltac:(lia)) as [[A0 _] _]. destruct (EP 1%nat ltac:(lia)) as [[A1 _] _]. destruct (EP 2%nat ltac:(lia)) as [[A2 _] _].
    rewrite <- (A0 i Hi), <- (A1 i Hi), <- (A2 i Hi). unfold apply3, sum_3.
    transitivity (M i 0%nat * delta 0 j + M i 1%nat * delta 1 j + M i 2%nat * delta 2 j).
    - unfold delta. destruct j as [|[|[|j]]]; [| | |lia]; cbn [Nat.eqb]; ring.
    - rewrite <- !CO by lia. ring. }
  assert (QE : quadratic M x = lam 0%nat * (dot x (ev 0%nat)) ^ 2 + lam 1%nat * (dot x (ev 1%nat)) ^ 2 + lam 2%nat * (dot x (ev 2%nat)) ^ 2).
  { unfold quadratic, sum_3. rewrite !ME by lia. unfold dot. ring. }
  assert (L01 : lam 0%nat <= lam 1%nat) by (apply EP; lia). assert (L12 : lam 1%nat <= lam 2%nat) by (apply EP; lia).
  assert (N : lam 0%nat < 0).
  { destruct (Rlt_le_dec (lam 0%nat) 0) as [L|L]; [exact L|]. exfalso.
    assert (P : forall k, 0 <= lam k -> 0 <= lam k * dot x (ev k) ^ 2) by (intros k Hk; apply Rmult_le_pos; [exact Hk|apply pow2_ge_0]).
    pose proof (P 0%nat ltac:(lra)). pose proof (P 1%nat ltac:(lra)). pose proof (P 2%nat ltac:(lra)). lra. }
  unfold phase, sign. destruct (Rlt_dec 0 (lam 0%nat)); [lra|]. destruct (Rlt_dec (lam 0%nat) 0); [|lra].
  assert (0 < sqrt (Rabs (lam 0%nat))) by (apply sqrt_lt_R0, Rabs_pos_lt; lra). lra.
Qed.
Lemma negative_row eigh pinv inv c Sm rho theta phi (x : vec) l : 0 < rho ->
  solves eigh (christoffel (Cmat c rho) (vector theta phi)) ->
  sum_3 (fun i => sum_3 (fun j => sum_3 (fun k => sum_3 (fun m => C_ijkl c i j k m * x i * polar theta phi j * x k * polar theta phi m)))) < 0 ->
  row eigh pinv inv c Sm rho (spherical_direction c rho theta phi) 0 = Ok l -> nth 2 l 0 < 0.
Proof.
  intros D SO Q E. destruct (C55_row eigh pinv inv c Sm rho theta phi 0) as (l' & E' & V). rewrite E in E'. injection E' as <-. cbv zeta in V. rewrite V. cbn [nth].
  apply (negative_mode eigh _ x SO). unfold quadratic.
  replace (sum_3 (fun i => sum_3 (fun k => x i * christoffel (Cmat c rho) (vector theta phi) i k * x k))) with
    (1000 / rho * sum_3 (fun i => sum_3 (fun j => sum_3 (fun k => sum_3 (fun m => C_ijkl c i j k m * x i * polar theta phi j * x k * polar theta phi m))))).
  - assert (0 < 1000 / rho) by (apply Rdiv_lt_0_compat; lra). nra.
  - unfold sum_3. rewrite !christoffel_gamma by (lra || lia). unfold Gamma, sum_3. rewrite <- !(polar_vector theta phi) by lia. ring.
Qed.
