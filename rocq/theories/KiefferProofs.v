From Coq Require Import Reals List Lra Lia Ratan.
From Coquelicot Require Import Coquelicot.
From Verif Require Import KiefferModel.
Import ListNotations.
Open Scope R_scope.

(** * Integrals up to an endpoint *)
(** The integral of f from a to b, b approached from below. *)
Definition integral_up_to (f : R -> R) (a b I : R) : Prop :=
  (forall c, a <= c < b -> ex_RInt f a c) /\ filterlim (fun c => RInt f a c) (at_left b) (locally I).
Lemma up_to_unique f a b I J : integral_up_to f a b I -> integral_up_to f a b J -> I = J.
Proof. intros [_ A] [_ B]. apply (filterlim_locally_unique (F := at_left b) (fun c => RInt f a c)); assumption. Qed.
Lemma at_left_near a b : a < b -> at_left b (fun c => a < c < b).
Proof.
  intros H. exists (mkposreal (b - a) ltac:(lra)). intros y Y L. unfold ball in Y. cbn in Y. unfold AbsRing_ball, abs, minus, plus, opp in Y. cbn in Y.
  unfold Rabs in Y. destruct (Rcase_abs (y + - b)); lra.
Qed.

(** * The density of states of a branch *)
Definition weight (xi x : R) : R := asin (x / xi) ^ 2 / sqrt (xi ^ 2 - x ^ 2).
Lemma ratio_range xi x : 0 < x < xi -> 0 < x / xi < 1.
Proof. intros H. split; [apply Rdiv_lt_0_compat; lra|]. apply Rmult_lt_reg_r with xi; [lra|]. unfold Rdiv. rewrite Rmult_assoc, Rinv_l by lra. lra. Qed.
Lemma is_derive_asin y : -1 < y < 1 -> is_derive asin y (/ sqrt (1 - y ^ 2)).
Proof.
  intros H. apply is_derive_Reals. pose proof (derive_pt_asin y H) as D.
  apply derive_pt_eq_1 in D. replace (/ sqrt (1 - y ^ 2)) with (1 / sqrt (1 - y²)); [exact D|]. unfold Rdiv, Rsqr. rewrite Rmult_1_l. do 3 f_equal. ring.
Qed.
Lemma sqrt_pos xi x : 0 < x < xi -> 0 < sqrt (xi ^ 2 - x ^ 2).
Proof. intros H. apply sqrt_lt_R0. nra. Qed.
Lemma sqrt_ratio xi x : 0 < x < xi -> xi * sqrt (1 - (x / xi) ^ 2) = sqrt (xi ^ 2 - x ^ 2).
Proof.
  intros H. replace (xi ^ 2 - x ^ 2) with (xi ^ 2 * (1 - (x / xi) ^ 2)) by (field; lra).
  pose proof (ratio_range xi x H). rewrite sqrt_mult by nra. f_equal. rewrite sqrt_pow2 by lra. reflexivity.
Qed.
Lemma asin_continuous xi x : 0 < x < xi -> continuous (fun x => asin (x / xi)) x.
Proof.
  intros H. pose proof (ratio_range xi x H). apply (continuous_comp (fun x => x / xi) asin).
  - apply (ex_derive_continuous (fun x => x / xi)). auto_derive. exact I.
  - apply (ex_derive_continuous asin). eexists. apply is_derive_asin. lra.
Qed.
Lemma weight_continuous xi x : 0 < x < xi -> continuous (weight xi) x.
Proof.
  intros H. unfold weight. pose proof (sqrt_pos xi x H) as P. apply (continuous_mult (fun x => asin (x / xi) ^ 2) (fun x => / sqrt (xi ^ 2 - x ^ 2))).
  - cbn [pow]. apply (continuous_mult (fun x => asin (x / xi)) (fun x => asin (x / xi) * 1)); [now apply asin_continuous|].
    apply (continuous_mult (fun x => asin (x / xi)) (fun _ => 1)); [now apply asin_continuous|apply continuous_const].
  - apply (ex_derive_continuous (fun x => / sqrt (xi ^ 2 - x ^ 2))). auto_derive. split; [nra|]. split; [|exact I]. cbn [pow] in P. intros Z.
    replace (xi * (xi * 1) + - (x * (x * 1))) with (xi * (xi * 1) - x * (x * 1)) in Z by ring. lra.
Qed.

(** ** Bounds of the arc sine *)
Lemma ratio_le xi x : 0 < x <= xi -> 0 <= x / xi <= 1.
Proof.
  intros Z. split; [apply Rmult_le_pos; [lra|left; apply Rinv_0_lt_compat; lra]|]. apply Rmult_le_reg_r with xi; [lra|]. unfold Rdiv. rewrite Rmult_assoc, Rinv_l by lra. lra.
Qed.
Lemma asin_nonneg y : 0 <= y <= 1 -> 0 <= asin y <= PI / 2.
Proof.
  intros H. pose proof (asin_bound y) as B. split; [|lra]. apply Rnot_lt_le. intros L.
  assert (sin (asin y) < 0) by (apply sin_lt_0_var; lra). rewrite sin_asin in H0 by lra. lra.
Qed.
Lemma asin_ge s y : 0 <= y <= 1 -> 0 <= s <= PI / 2 -> sin s <= y -> s <= asin y.
Proof.
  intros Y A H. pose proof (asin_nonneg y Y). apply Rnot_lt_le. intros L.
  assert (sin (asin y) < sin s) by (apply sin_increasing_1; lra). rewrite sin_asin in H1 by lra. lra.
Qed.

Lemma asin_near_one e : 0 < e -> exists y, y < 1 /\ forall z, y < z <= 1 -> PI / 2 - e < asin z.
Proof.
  intros E. pose proof PI_RGT_0. pose (s := Rmax (PI / 2 - e / 2) 0).
  assert (B : 0 <= s < PI / 2).
  { unfold s. unfold Rmax. destruct (Rle_dec _ _); lra. }
  assert (L : PI / 2 - e < s) by (unfold s; pose proof (Rmax_l (PI / 2 - e / 2) 0); lra).
  exists (sin s). split; [rewrite <- sin_PI2; apply sin_increasing_1; lra|].
  intros z Z. apply Rlt_le_trans with (1 := L). apply asin_ge; [|lra|lra].
  split; [|lra]. apply Rle_trans with (sin s); [apply sin_ge_0; lra|lra].
Qed.

(** ** The wave vector as variable of integration *)
(** The reduced frequency x is xi * sin (pi/2 * t), t the fraction of the zone
    boundary wave vector. *)
Definition angle (xi x : R) : R := 2 / PI * asin (x / xi).
Definition on_zone (g : R -> R) (xi t : R) : R := (PI / 2) ^ 3 * (t ^ 2 * g (xi * sin (PI / 2 * t))).
Lemma angle_sin xi x : 0 < x <= xi -> xi * sin (PI / 2 * angle xi x) = x.
Proof.
  intros H. unfold angle. pose proof PI_RGT_0. replace (PI / 2 * (2 / PI * asin (x / xi))) with (asin (x / xi)) by (field; lra).
  pose proof (ratio_le xi x H). rewrite sin_asin by lra. field. lra.
Qed.
Lemma angle_range xi x : 0 < x <= xi -> 0 < angle xi x <= 1.
Proof.
  intros H. pose proof PI_RGT_0. pose proof (ratio_le xi x H) as B. pose proof (asin_nonneg _ B) as A.
  assert (0 < asin (x / xi)).
  { destruct (Rle_lt_or_eq_dec 0 _ (proj1 A)) as [L|L]; [exact L|]. exfalso.
    assert (sin (asin (x / xi)) = x / xi) by (apply sin_asin; lra). rewrite <- L, sin_0 in H1.
    assert (0 < x / xi) by (apply Rmult_lt_0_compat; [lra|apply Rinv_0_lt_compat; lra]). lra. }
  unfold angle. split; [apply Rmult_lt_0_compat; [apply Rmult_lt_0_compat; [lra|now apply Rinv_0_lt_compat]|assumption]|].
  replace 1 with (2 / PI * (PI / 2)) by (field; lra). apply Rmult_le_compat_l; [|lra]. left. apply Rmult_lt_0_compat; [lra|now apply Rinv_0_lt_compat].
Qed.
Lemma angle_lt xi x y : 0 < x < y -> y <= xi -> angle xi x < angle xi y.
Proof.
  intros H K. pose proof (angle_sin xi x ltac:(lra)) as X. pose proof (angle_sin xi y ltac:(lra)) as Y.
  pose proof (angle_range xi x ltac:(lra)) as RX. pose proof (angle_range xi y ltac:(lra)) as RY. pose proof PI_RGT_0.
  apply Rnot_le_lt. intros L. assert (sin (PI / 2 * angle xi y) <= sin (PI / 2 * angle xi x)); [|nra].
  destruct (Rle_lt_or_eq_dec _ _ L) as [L'|E]; [|rewrite E; lra]. left. apply sin_increasing_1; nra.
Qed.
Lemma angle_lt_1 xi x : 0 < x < xi -> angle xi x < 1.
Proof.
  intros H. pose proof (angle_sin xi x ltac:(lra)) as X. pose proof (angle_range xi x ltac:(lra)) as RX.
  destruct (Rle_lt_or_eq_dec _ _ (proj2 RX)) as [L|L]; [exact L|]. rewrite L, Rmult_1_r, sin_PI2 in X. lra.
Qed.
Lemma zone_sin xi t : 0 < xi -> 0 < t < 2 -> 0 < xi * sin (PI / 2 * t).
Proof. intros H B. pose proof PI_RGT_0. apply Rmult_lt_0_compat; [exact H|]. apply sin_gt_0; nra. Qed.
Lemma on_zone_continuous g xi t : 0 < xi -> 0 < t < 2 -> (forall x, 0 < x -> continuous g x) -> continuous (on_zone g xi) t.
Proof.
  intros H B G. unfold on_zone. apply (continuous_mult (fun _ => (PI / 2) ^ 3) (fun t => t ^ 2 * g (xi * sin (PI / 2 * t)))); [apply continuous_const|].
  apply (continuous_mult (fun t : R => t ^ 2) (fun t => g (xi * sin (PI / 2 * t)))).
  - apply (ex_derive_continuous (fun t : R => t ^ 2)). auto_derive. exact Logic.I.
  - apply (continuous_comp (fun t => xi * sin (PI / 2 * t)) g); [|apply G; now apply zone_sin].
    apply (ex_derive_continuous (fun t => xi * sin (PI / 2 * t))). auto_derive. exact Logic.I.
Qed.
Lemma substitution g xi a c : 0 < a -> a <= c < xi -> (forall x, 0 < x -> continuous g x) ->
  RInt (fun x => g x * weight xi x) a c = RInt (on_zone g xi) (angle xi a) (angle xi c).
Proof.
  intros A C G. pose proof PI_RGT_0.
  rewrite <- (angle_sin xi a) at 1 by lra. rewrite <- (angle_sin xi c) at 1 by lra.
  pose proof (angle_range xi a ltac:(lra)) as RA. pose proof (angle_lt_1 xi c ltac:(lra)) as RC.
  assert (AC : angle xi a <= angle xi c).
  { destruct (Rle_lt_or_eq_dec a c) as [L|E]; [lra| |rewrite E; lra]. left. apply angle_lt; lra. }
  rewrite <- (RInt_comp (fun x => g x * weight xi x) (fun t => xi * sin (PI / 2 * t)) (fun t => xi * (PI / 2 * cos (PI / 2 * t)))).
  - apply RInt_ext. intros t B. rewrite Rmin_left, Rmax_right in B by lra. unfold scal. cbn. unfold mult. cbn. unfold on_zone, weight.
    assert (Q : 0 < cos (PI / 2 * t)) by (apply cos_gt_0; nra).
    replace (xi * sin (PI / 2 * t) / xi) with (sin (PI / 2 * t)) by (field; lra). rewrite asin_sin by nra.
    replace (xi ^ 2 - (xi * sin (PI / 2 * t)) ^ 2) with ((xi * cos (PI / 2 * t)) ^ 2).
    + rewrite sqrt_pow2 by nra. field. split; lra.
    + rewrite !Rpow_mult_distr. pose proof (sin2_cos2 (PI / 2 * t)) as SC. unfold Rsqr in SC. cbn [pow].
      replace (xi * (xi * 1) - xi * (xi * 1) * (sin (PI / 2 * t) * (sin (PI / 2 * t) * 1)))
        with (xi * xi * (1 - sin (PI / 2 * t) * sin (PI / 2 * t))) by ring.
      replace (1 - sin (PI / 2 * t) * sin (PI / 2 * t)) with (cos (PI / 2 * t) * cos (PI / 2 * t)) by lra. ring.
  - intros t B. rewrite Rmin_left, Rmax_right in B by lra.
    assert (X : 0 < xi * sin (PI / 2 * t) < xi).
    { split; [apply zone_sin; lra|]. assert (sin (PI / 2 * t) < 1) by (rewrite <- sin_PI2; apply sin_increasing_1; nra). nra. }
    apply (continuous_mult g (weight xi)); [apply G; lra|apply weight_continuous; exact X].
  - intros t B. split.
    + auto_derive; [exact Logic.I|]. ring.
    + apply (ex_derive_continuous (fun t => xi * (PI / 2 * cos (PI / 2 * t)))). auto_derive. exact Logic.I.
Qed.
Lemma weighted_ex xi g a c : 0 < a -> a <= c < xi -> (forall x, 0 < x -> continuous g x) -> ex_RInt (fun x => g x * weight xi x) a c.
Proof.
  intros A C G. apply (ex_RInt_continuous (fun x => g x * weight xi x)). intros x X. rewrite Rmin_left, Rmax_right in X by lra.
  apply (continuous_mult g (weight xi)); [apply G; lra|apply weight_continuous; lra].
Qed.
Lemma zone_ex g xi a b : 0 < xi -> 0 < a -> a <= b < 2 -> (forall x, 0 < x -> continuous g x) -> ex_RInt (on_zone g xi) a b.
Proof.
  intros H A B G. apply (ex_RInt_continuous (on_zone g xi)). intros t X. rewrite Rmin_left, Rmax_right in X by lra.
  apply on_zone_continuous; [lra|lra|exact G].
Qed.
Lemma angle_limit xi : 0 < xi -> filterlim (angle xi) (at_left xi) (at_left 1).
Proof.
  intros H Q [eps HQ]. pose proof PI_RGT_0. unfold filtermap.
  destruct (asin_near_one (eps * (PI / 2))) as (y & Y & N); [apply Rmult_lt_0_compat; [apply cond_pos|lra]|].
  apply (filter_imp (fun c => Rmax (xi * y) 0 < c < xi)); [|apply at_left_near; unfold Rmax; destruct (Rle_dec _ _); nra].
  intros c C. pose proof (Rmax_l (xi * y) 0). pose proof (Rmax_r (xi * y) 0).
  pose proof (angle_lt_1 xi c ltac:(lra)) as L. apply HQ; [|exact L].
  change (Rabs (angle xi c + - 1) < eps). rewrite Rabs_left by lra. unfold angle in *.
  assert (y < c / xi <= 1).
  { split; apply Rmult_lt_reg_r with xi || apply Rmult_le_reg_r with xi; try lra; unfold Rdiv; rewrite Rmult_assoc, Rinv_l by lra; lra. }
  specialize (N _ H3). assert (1 - eps < 2 / PI * asin (c / xi)); [|lra].
  apply Rmult_lt_reg_l with (PI / 2); [lra|]. replace (PI / 2 * (2 / PI * asin (c / xi))) with (asin (c / xi)) by (field; lra). lra.
Qed.
Lemma weighted_up_to g xi a : 0 < a < xi -> (forall x, 0 < x -> continuous g x) ->
  integral_up_to (fun x => g x * weight xi x) a xi (RInt (on_zone g xi) (angle xi a) 1).
Proof.
  intros A G. split; [intros c C; apply weighted_ex; [lra|lra|exact G]|].
  pose proof (angle_range xi a ltac:(lra)) as RA. pose proof (angle_lt_1 xi a ltac:(lra)) as LA.
  apply (filterlim_ext_loc (fun c => RInt (on_zone g xi) (angle xi a) (angle xi c))).
  - apply (filter_imp (fun c => a < c < xi)); [|apply at_left_near; lra]. intros c C. symmetry. apply substitution; [lra|lra|exact G].
  - apply (filterlim_comp _ _ _ (angle xi) (fun t => RInt (on_zone g xi) (angle xi a) t) (at_left xi) (at_left 1)); [apply angle_limit; lra|].
    apply (filterlim_filter_le_1 (G := at_left 1) (F := locally 1)); [apply filter_le_within|].
    apply (continuous_RInt_1 (on_zone g xi) (angle xi a) 1 (fun t => RInt (on_zone g xi) (angle xi a) t)).
    exists (mkposreal (1 - angle xi a) ltac:(lra)). intros z Z. change (Rabs (z + - 1) < 1 - angle xi a) in Z.
    assert (angle xi a <= z < 2) by (unfold Rabs in Z; destruct (Rcase_abs _); lra).
    apply (RInt_correct (on_zone g xi)). apply zone_ex; [lra|lra|lra|exact G].
Qed.
Lemma weighted_to g xi a b : 0 < a < b -> b < xi -> (forall x, 0 < x -> continuous g x) ->
  integral_up_to (fun x => g x * weight xi x) a b (RInt (on_zone g xi) (angle xi a) (angle xi b)).
Proof.
  intros A B G. split; [intros c C; apply weighted_ex; [lra|lra|exact G]|].
  rewrite <- substitution by (try exact G; lra).
  apply (filterlim_filter_le_1 (G := at_left b) (F := locally b)); [apply filter_le_within|].
  apply (continuous_RInt_1 (fun x => g x * weight xi x) a b (fun t => RInt (fun x => g x * weight xi x) a t)).
  pose (e := Rmin (b - a) (xi - b)). assert (E : 0 < e) by (unfold e, Rmin; destruct (Rle_dec _ _); lra).
  exists (mkposreal e E). intros z Z. change (Rabs (z + - b) < e) in Z.
  assert (a <= z < xi).
  { pose proof (Rmin_l (b - a) (xi - b)). pose proof (Rmin_r (b - a) (xi - b)). unfold e in Z. unfold Rabs in Z. destruct (Rcase_abs _); lra. }
  apply (RInt_correct (fun x => g x * weight xi x)). apply weighted_ex; [lra|lra|exact G].
Qed.
Lemma up_to_ext f g a b I : a < b -> (forall x, a < x < b -> f x = g x) -> integral_up_to f a b I -> integral_up_to g a b I.
Proof.
  intros AB H [E L]. split.
  - intros c C. apply (ex_RInt_ext f); [|apply E, C]. intros x X. rewrite Rmin_left, Rmax_right in X by lra. apply H. lra.
  - apply (filterlim_ext_loc (fun c => RInt f a c)); [|exact L].
    apply (filter_imp (fun c => a < c < b)); [|now apply at_left_near]. intros c C. apply RInt_ext.
    intros x X. rewrite Rmin_left, Rmax_right in X by lra. apply H. lra.
Qed.
