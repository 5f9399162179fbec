From Coq Require Import Reals List Lra Lia Arith Bool.
From Coquelicot Require Import Coquelicot.
From Verif Require Import ParModel ParProofs StatMechModel StatMechSpec.
Import ListNotations.
Open Scope R_scope.

(** ** Sums *)
Lemma Rsum_ext n f g : (forall i, (i < n)%nat -> f i = g i) -> Rsum n f = Rsum n g.
Proof. induction n; intros E; simpl; [reflexivity|]. rewrite IHn by (intros; apply E; lia). rewrite (E n) by lia. reflexivity. Qed.
Lemma Rsum_plus n f g : Rsum n (fun i => f i + g i) = Rsum n f + Rsum n g.
Proof. induction n; simpl; [lra|]. rewrite IHn. lra. Qed.
Lemma Rsum_scal n f c : Rsum n (fun i => c * f i) = c * Rsum n f.
Proof. induction n; simpl; [lra|]. rewrite IHn. lra. Qed.
Lemma Rsum_scal_r n f c : Rsum n (fun i => f i * c) = Rsum n f * c.
Proof. induction n; simpl; [lra|]. rewrite IHn. lra. Qed.
Lemma Rsum_le n f g : (forall i, (i < n)%nat -> f i <= g i) -> Rsum n f <= Rsum n g.
Proof. induction n; intros E; simpl; [lra|]. assert (Rsum n f <= Rsum n g) by (apply IHn; intros; apply E; lia). specialize (E n ltac:(lia)). lra. Qed.
Lemma Rsum_lt n f g : (forall i, (i < n)%nat -> f i <= g i) -> (exists i, (i < n)%nat /\ f i < g i) -> Rsum n f < Rsum n g.
Proof.
  induction n; intros E [i [Hi L]]; simpl; [lia|].
  assert (A : Rsum n f <= Rsum n g) by (apply Rsum_le; intros; apply E; lia).
  destruct (Nat.eq_dec i n) as [->|Ne]; [lra|].
  assert (B : Rsum n f < Rsum n g) by (apply IHn; [intros; apply E; lia|exists i; split; [lia|exact L]]).
  specialize (E n ltac:(lia)). lra.
Qed.
Lemma Rsum_0 n f : (forall i, (i < n)%nat -> f i = 0) -> Rsum n f = 0.
Proof. induction n; intros E; simpl; [reflexivity|]. rewrite IHn by (intros; apply E; lia). rewrite E by lia. lra. Qed.
Lemma Rsum_const n c : Rsum n (fun _ => c) = INR n * c.
Proof. induction n; simpl Rsum; [simpl; lra|]. rewrite IHn, S_INR. lra. Qed.
Lemma Rsum_is_derive n (f : nat -> R -> R) (df : nat -> R) x :
  (forall i, (i < n)%nat -> is_derive (f i) x (df i)) ->
  is_derive (fun y => Rsum n (fun i => f i y)) x (Rsum n df).
Proof.
  induction n; intros E; simpl.
  - apply (is_derive_const 0).
  - apply (is_derive_plus (fun y => Rsum n (fun i => f i y)) (f n)); [apply IHn; intros; apply E; lia|apply E; lia].
Qed.

(** ** The loops compute sums *)
Lemma exec_add_row (l : list (nat * R)) i : forall m c,
  exec Rplus (map (fun p => AddTo i (fst p) (snd p)) l) m i c =
  m i c + fold_right (fun p s => (if Nat.eqb (fst p) c then snd p else 0) + s) 0 l.
Proof.
  induction l as [|[c0 v] l IH]; intros m c; simpl; [lra|].
  rewrite IH. unfold write. rewrite Nat.eqb_refl. simpl.
  rewrite (Nat.eqb_sym c0 c). destruct (Nat.eqb_spec c c0); [subst|]; lra.
Qed.

Definition pairs_of (ho : R -> R -> R) (T : R) (b : bands) (w : nat -> R) : list (nat * R) :=
  flat_map (fun j => flat_map (fun k => map (fun n => (n, ho T (freq b j k n) * w j)) (seq 0 (nv b)))
     (seq 0 (nf b))) (seq 0 (nb b)).

Lemma map_flat_map {A B C} (f : B -> C) (g : A -> list B) l :
  map f (flat_map g l) = flat_map (fun x => map f (g x)) l.
Proof. induction l; simpl; [reflexivity|]. now rewrite map_app, IHl. Qed.

Lemma iteration_pairs ho T b w i :
  band_iteration ho T b w i = map (fun p => AddTo i (fst p) (snd p)) (pairs_of ho (T i) b w).
Proof.
  unfold band_iteration, accumulate, pairs_of. rewrite map_flat_map.
  apply flat_map_ext. intros j. rewrite map_flat_map. apply flat_map_ext. intros k.
  rewrite map_map. reflexivity.
Qed.

Lemma fold_app (f : nat * R -> R) l l' :
  fold_right (fun p s => f p + s) 0 (l ++ l') =
  fold_right (fun p s => f p + s) 0 l + fold_right (fun p s => f p + s) 0 l'.
Proof. induction l; simpl; [lra|]. rewrite IHl. lra. Qed.

Lemma fold_flat_seq (f : nat * R -> R) (g : nat -> list (nat * R)) n :
  fold_right (fun p s => f p + s) 0 (flat_map g (seq 0 n)) =
  Rsum n (fun j => fold_right (fun p s => f p + s) 0 (g j)).
Proof.
  induction n; [reflexivity|]. rewrite seq_S, flat_map_app, fold_app. simpl.
  rewrite IHn, app_nil_r. reflexivity.
Qed.

Lemma fold_cols (v : nat -> R) c n :
  fold_right (fun p s => (if Nat.eqb (fst p) c then snd p else 0) + s) 0
     (map (fun n => (n, v n)) (seq 0 n)) = if (c <? n)%nat then v c else 0.
Proof.
  induction n; [reflexivity|]. rewrite seq_S, map_app, fold_app. simpl. rewrite IHn.
  destruct (Nat.eqb_spec n c).
  - subst. destruct (Nat.ltb_spec c c); [lia|]. destruct (Nat.ltb_spec c (S c)); [|lia]. lra.
  - destruct (Nat.ltb_spec c n), (Nat.ltb_spec c (S n)); try lia; lra.
Qed.

Lemma iteration_row ho T b w i o : In o (band_iteration ho T b w i) -> row R o = i.
Proof.
  rewrite iteration_pairs. intros I. apply in_map_iff in I as (p & <- & _). reflexivity.
Qed.

Lemma band_loop_sum ho nt T b w i n :
  (i < nt)%nat -> (n < nv b)%nat ->
  band_loop ho nt T b w i n = band_sum b w n (ho (T i)).
Proof.
  intros Hi Hn. unfold band_loop.
  rewrite exec_seq_row; [|intros; eapply iteration_row; eauto|exact Hi].
  rewrite iteration_pairs, exec_add_row. unfold zeros, band_sum, pairs_of.
  rewrite fold_flat_seq, Rplus_0_l. apply Rsum_ext. intros j Hj.
  rewrite fold_flat_seq. apply Rsum_ext. intros k Hk.
  rewrite (fold_cols (fun n => ho (T i) (freq b j k n) * w j)).
  apply Nat.ltb_lt in Hn. rewrite Hn. reflexivity.
Qed.

Lemma single_row_loop (v : nat -> nat -> R) nt nvol i j :
  (i < nt)%nat -> (j < nvol)%nat ->
  exec Rplus (flat_map (fun i => map (fun j => AddTo i j (v i j)) (seq 0 nvol)) (seq 0 nt)) zeros i j = v i j.
Proof.
  intros Hi Hj. rewrite exec_seq_row; [| |exact Hi].
  - replace (map (fun j => AddTo i j (v i j)) (seq 0 nvol))
      with (map (fun p => AddTo i (fst p) (snd p)) (map (fun j => (j, v i j)) (seq 0 nvol)))
      by (rewrite map_map; reflexivity).
    rewrite exec_add_row, fold_cols. apply Nat.ltb_lt in Hj. rewrite Hj. unfold zeros. lra.
  - intros i' o _ I. apply in_map_iff in I as (p & <- & _). reflexivity.
Qed.

Lemma internal_energy_value nt nvol U0 Uzp Uth i j :
  (i < nt)%nat -> (j < nvol)%nat ->
  internal_energy nt nvol U0 Uzp Uth i j = U0 j + Uzp j + Uth i j.
Proof. apply (single_row_loop (fun i j => U0 j + Uzp j + Uth i j)). Qed.
Lemma free_energy_value nt nvol U0 Fvib i j :
  (i < nt)%nat -> (j < nvol)%nat ->
  free_energy nt nvol U0 Fvib i j = U0 j + Fvib i j.
Proof. apply (single_row_loop (fun i j => U0 j + Fvib i j)). Qed.

(** ** One oscillator *)
Lemma Rle_b_true a b : a <= b -> Rle_b a b = true.
Proof. unfold Rle_b. destruct (Rle_dec a b); [reflexivity|contradiction]. Qed.
Lemma Rle_b_false a b : b < a -> Rle_b a b = false.
Proof. unfold Rle_b. destruct (Rle_dec a b); [lra|reflexivity]. Qed.
Lemma Req_b_true a b : a = b -> Req_b a b = true.
Proof. unfold Req_b. destruct (Req_EM_T a b); [reflexivity|contradiction]. Qed.
Lemma Req_b_false a b : a <> b -> Req_b a b = false.
Proof. unfold Req_b. destruct (Req_EM_T a b); [contradiction|reflexivity]. Qed.

Section Modes.
Variable P : phys.
Hypothesis PP : physical P.
Let hH : 0 < hpl P. Proof. apply PP. Qed.
Let hK : 0 < KB P. Proof. apply PP. Qed.
Let hN : 0 < NA P. Proof. apply PP. Qed.

Definition xx (T w : R) := hpl P * w / (KB P * T).
Lemma xx_pos T w : 0 < T -> 0 < w -> 0 < xx T w.
Proof. intros. unfold xx. apply Rdiv_lt_0_compat; apply Rmult_lt_0_compat; auto. Qed.
Lemma expm1_pos x : 0 < x -> 0 < expm1 x.
Proof. intros. unfold expm1. pose proof (exp_ineq1 x). lra. Qed.
Lemma expm1_ge x : 0 <= x -> x <= expm1 x.
Proof. intros. unfold expm1. pose proof (exp_ineq1_le x). lra. Qed.
Lemma expm1_ge2 x : 0 <= x -> x ^ 2 / 4 <= expm1 x.
Proof.
  intros. unfold expm1. replace (exp x) with (exp (x / 2) * exp (x / 2)) by (rewrite <- exp_plus; f_equal; lra).
  pose proof (exp_ineq1_le (x / 2)). nra.
Qed.
Lemma expm1_ge3 x : 0 <= x -> x ^ 3 / 27 <= expm1 x.
Proof.
  intros. unfold expm1. replace (exp x) with (exp (x / 3) * exp (x / 3) * exp (x / 3)) by (rewrite <- !exp_plus; f_equal; lra).
  pose proof (exp_ineq1_le (x / 3)) as E. set (e := exp (x/3)) in *.
  assert (0 <= 1 + x / 3) by lra.
  assert ((1 + x/3) * (1 + x/3) <= e * e) by nra.
  assert ((1 + x/3) * (1 + x/3) * (1 + x/3) <= e * e * e) by nra. nra.
Qed.
Lemma one_minus_exp x : 0 < x -> 0 < 1 - exp (- x) < 1.
Proof.
  intros. pose proof (exp_pos (- x)). assert (exp (- x) < 1).
  { rewrite <- exp_0. apply exp_increasing. lra. } lra.
Qed.
Lemma ln_neg x : 0 < x -> ln (1 - exp (- x)) < 0.
Proof. intros Hx. pose proof (one_minus_exp x Hx). rewrite <- ln_1. apply ln_increasing; lra. Qed.
(** - ln(1 - e^-x) <= 1/(e^x - 1) *)
Lemma ln_bound x : 0 < x -> - ln (1 - exp (- x)) <= 1 / expm1 x.
Proof.
  intros Hx. pose proof (one_minus_exp x Hx). pose proof (expm1_pos x Hx) as Q.
  rewrite <- ln_Rinv by lra.
  assert (E : / (1 - exp (- x)) = 1 + 1 / expm1 x).
  { rewrite exp_Ropp. unfold expm1 in *. field. pose proof (exp_pos x). split; lra. }
  rewrite E. rewrite <- (ln_exp (1 / expm1 x)) at 2. 
  assert (0 < 1 / expm1 x) by (apply Rdiv_lt_0_compat; lra).
  apply ln_le; [lra|]. apply exp_ineq1_le.
Qed.

(** Values in closed form *)
Lemma zpe_pos_val T w : 0 < w -> ho_zpe P T w = / 1000 * NA P * (hpl P * w / 2).
Proof. intros. unfold ho_zpe. rewrite Rle_b_false by lra. lra. Qed.
Lemma eth_val T w : 0 < T -> 0 < w -> ho_eth P T w = / 1000 * NA P * (hpl P * w / expm1 (xx T w)).
Proof. intros. unfold ho_eth. rewrite Rle_b_false, Req_b_false by lra. reflexivity. Qed.
Lemma S_val T w : 0 < T -> 0 < w ->
  ho_S P T w = NA P * KB P * (xx T w / expm1 (xx T w) - ln (1 - exp (- xx T w))).
Proof. intros. unfold ho_S. rewrite Rle_b_false, Req_b_false by lra. cbv zeta. cbn [orb]. fold (xx T w). f_equal. unfold Rdiv. ring. Qed.
Lemma F_val T w : 0 < T -> 0 < w ->
  ho_F P T w = / 1000 * NA P * (hpl P * w / 2 + KB P * T * ln (1 - exp (- xx T w))).
Proof. intros. unfold ho_F. rewrite Rle_b_false, Req_b_false by lra. cbv zeta. fold (xx T w). lra. Qed.
Lemma Cv_val T w : 0 < T -> 0 < w ->
  ho_Cv P T w = NA P * KB P * exp (xx T w) * (xx T w / expm1 (xx T w)) ^ 2.
Proof.
  intros HT Hw. unfold ho_Cv. rewrite Rle_b_false, Req_b_false by lra. cbv zeta. cbn [orb]. fold (xx T w).
  pose proof (xx_pos T w HT Hw) as X. pose proof (expm1_pos _ X).
  rewrite Req_b_false; [reflexivity|]. apply pow_nonzero.
  apply Rgt_not_eq, Rdiv_lt_0_compat; assumption.
Qed.

Lemma inert T w : w <= 0 ->
  ho_zpe P T w = 0 /\ ho_eth P T w = 0 /\ ho_S P T w = 0 /\ ho_F P T w = 0 /\ ho_Cv P T w = 0.
Proof. intros. unfold ho_zpe, ho_eth, ho_S, ho_F, ho_Cv. rewrite (Rle_b_true w 0) by lra. auto. Qed.

Lemma at_zero w : ho_eth P 0 w = 0 /\ ho_S P 0 w = 0 /\ ho_Cv P 0 w = 0 /\ ho_F P 0 w = ho_zpe P 0 w.
Proof.
  unfold ho_zpe, ho_eth, ho_S, ho_F, ho_Cv. rewrite (Req_b_true 0 0) by reflexivity.
  rewrite orb_true_r. repeat split. destruct (Rle_b w 0); [reflexivity|]. lra.
Qed.

(** F = U - TS *)
Lemma mode_identity T w : 0 <= T ->
  ho_F P T w = ho_zpe P T w + ho_eth P T w - T * ho_S P T w / 1000.
Proof.
  intros HT. destruct (Rle_or_lt w 0) as [Hw|Hw].
  - destruct (inert T w Hw) as (-> & -> & -> & -> & _). lra.
  - destruct HT as [HT| <-].
    + rewrite F_val, zpe_pos_val, eth_val, S_val by assumption.
      pose proof (xx_pos T w HT Hw) as X. pose proof (expm1_pos _ X) as E.
      set (L := ln (1 - exp (- xx T w))) in *. set (em := expm1 (xx T w)) in *.
      unfold xx. field. repeat split; lra.
    + destruct (at_zero w) as (-> & -> & _ & ->).
      unfold ho_zpe. lra.
Qed.

(** Derivatives *)
Lemma eth_derive T w : 0 < T -> is_derive (fun t => ho_eth P t w) T (ho_Cv P T w / 1000).
Proof.
  intros HT. destruct (Rle_or_lt w 0) as [Hw|Hw].
  - destruct (inert T w Hw) as (_ & _ & _ & _ & ->).
    apply is_derive_ext with (fun _ => 0).
    { intros t. destruct (inert t w Hw) as (_ & -> & _). reflexivity. }
    unfold Rdiv; rewrite Rmult_0_l. apply (is_derive_const 0).
  - apply is_derive_ext_loc with (fun t => / 1000 * NA P * (hpl P * w / (exp (hpl P * w / (KB P * t)) - 1))).
    { exists (mkposreal T HT). intros t Ht. unfold ball in Ht; simpl in Ht.
      unfold AbsRing_ball, abs, minus, plus, opp in Ht; simpl in Ht.
      symmetry. apply eth_val; [|exact Hw]. apply Rabs_def2 in Ht. lra. }
    pose proof (xx_pos T w HT Hw) as X. pose proof (expm1_pos _ X) as E. unfold expm1, xx in E.
    rewrite Cv_val by assumption. unfold xx, expm1.
    auto_derive.
    + split; [apply Rmult_integral_contrapositive; split; lra|split; [lra|exact I]].
    + change (hpl P * w * / (KB P * T)) with (hpl P * w / (KB P * T)).
      set (e := exp (hpl P * w / (KB P * T))) in *.
      field. repeat split; try lra.
Qed.

Lemma F_derive T w : 0 < T -> is_derive (fun t => ho_F P t w) T (- ho_S P T w / 1000).
Proof.
  intros HT. destruct (Rle_or_lt w 0) as [Hw|Hw].
  - destruct (inert T w Hw) as (_ & _ & -> & _ & _).
    apply is_derive_ext with (fun _ => 0).
    { intros t. destruct (inert t w Hw) as (_ & _ & _ & -> & _). reflexivity. }
    replace (- 0 / 1000) with 0 by lra. apply (is_derive_const 0).
  - apply is_derive_ext_loc with (fun t => / 1000 * NA P * (hpl P * w / 2 + KB P * t * ln (1 - exp (- (hpl P * w / (KB P * t)))))).
    { exists (mkposreal T HT). intros t Ht. unfold ball in Ht; simpl in Ht.
      unfold AbsRing_ball, abs, minus, plus, opp in Ht; simpl in Ht.
      symmetry. apply F_val; [|exact Hw]. apply Rabs_def2 in Ht. lra. }
    pose proof (xx_pos T w HT Hw) as X. pose proof (expm1_pos _ X) as E. pose proof (one_minus_exp _ X) as O.
    unfold expm1, xx in E, O.
    rewrite S_val by assumption. unfold xx.
    auto_derive.
    + split; [apply Rmult_integral_contrapositive; split; lra|split; [lra|exact I]].
    + unfold expm1. set (L := ln _). set (y := hpl P * w / (KB P * T)) in *.
      replace (exp (- (hpl P * w * / (KB P * T)))) with (/ exp y).
      2:{ rewrite <- exp_Ropp. f_equal. }
      pose proof (exp_pos y). rewrite exp_Ropp in O.
      subst y. set (e := exp (hpl P * w / (KB P * T))) in *.
      change (hpl P * w * / (KB P * T)) with (hpl P * w / (KB P * T)).
      field. repeat split; try lra.
Qed.

Lemma S_derive T w : 0 < T -> is_derive (fun t => ho_S P t w) T (ho_Cv P T w / T).
Proof.
  intros HT. destruct (Rle_or_lt w 0) as [Hw|Hw].
  - destruct (inert T w Hw) as (_ & _ & _ & _ & ->).
    apply is_derive_ext with (fun _ => 0).
    { intros t. destruct (inert t w Hw) as (_ & _ & -> & _). reflexivity. }
    unfold Rdiv; rewrite Rmult_0_l. apply (is_derive_const 0).
  - apply is_derive_ext_loc with (fun t => NA P * KB P * ((hpl P * w / (KB P * t)) / (exp (hpl P * w / (KB P * t)) - 1) - ln (1 - exp (- (hpl P * w / (KB P * t)))))).
    { exists (mkposreal T HT). intros t Ht. unfold ball in Ht; simpl in Ht.
      unfold AbsRing_ball, abs, minus, plus, opp in Ht; simpl in Ht.
      symmetry. apply S_val; [|exact Hw]. apply Rabs_def2 in Ht. lra. }
    pose proof (xx_pos T w HT Hw) as X. pose proof (expm1_pos _ X) as E. pose proof (one_minus_exp _ X) as O.
    unfold expm1, xx in E, O.
    rewrite Cv_val by assumption. unfold xx, expm1.
    auto_derive.
    + assert (KB P * T <> 0) by (apply Rmult_integral_contrapositive; split; lra).
      repeat split; try assumption; try lra.
    + replace (exp (- (hpl P * w * / (KB P * T)))) with (/ exp (hpl P * w / (KB P * T))).
      2:{ rewrite <- exp_Ropp. f_equal. }
      change (hpl P * w * / (KB P * T)) with (hpl P * w / (KB P * T)).
      rewrite exp_Ropp in O. pose proof (exp_pos (hpl P * w / (KB P * T))).
      set (e := exp (hpl P * w / (KB P * T))) in *.
      field. repeat split; try lra.
Qed.

(** Bounds *)
Lemma eth_bounds T w : 0 <= T -> 0 <= ho_eth P T w <= / 1000 * NA P * KB P * T.
Proof.
  intros HT. assert (B : 0 <= / 1000 * NA P * KB P * T).
  { apply Rmult_le_pos; [|exact HT]. apply Rmult_le_pos; [|lra]. lra. }
  destruct (Rle_or_lt w 0) as [Hw|Hw].
  - destruct (inert T w Hw) as (_ & -> & _). lra.
  - destruct HT as [HT| <-].
    2:{ destruct (at_zero w) as (-> & _). lra. }
    rewrite eth_val by assumption.
    pose proof (xx_pos T w HT Hw) as X. pose proof (expm1_pos _ X) as E.
    pose proof (expm1_ge _ (Rlt_le _ _ X)) as G.
    assert (Q : hpl P * w / expm1 (xx T w) <= KB P * T).
    { apply Rle_trans with (hpl P * w / xx T w).
      - apply Rmult_le_compat_l. { apply Rmult_le_pos; lra. } apply Rinv_le_contravar; assumption.
      - unfold xx. right. field. repeat split; lra. }
    assert (Q0 : 0 <= hpl P * w / expm1 (xx T w)).
    { apply Rlt_le, Rdiv_lt_0_compat; [apply Rmult_lt_0_compat|]; assumption. }
    split.
    + apply Rmult_le_pos; [lra|exact Q0].
    + replace (/ 1000 * NA P * KB P * T) with (/ 1000 * NA P * (KB P * T)) by lra.
      apply Rmult_le_compat_l; [lra|exact Q].
Qed.
Lemma eth_pos T w : 0 < T -> 0 < w -> 0 < ho_eth P T w.
Proof.
  intros HT Hw. rewrite eth_val by assumption.
  pose proof (expm1_pos _ (xx_pos T w HT Hw)).
  apply Rmult_lt_0_compat; [lra|]. apply Rdiv_lt_0_compat; [apply Rmult_lt_0_compat|]; assumption.
Qed.

Lemma S_bounds T w : 0 < T -> 0 < w ->
  0 < ho_S P T w <= NA P * KB P * (5 / xx T w).
Proof.
  intros HT Hw. rewrite S_val by assumption.
  pose proof (xx_pos T w HT Hw) as X. pose proof (expm1_pos _ X) as E.
  pose proof (ln_neg _ X) as L. pose proof (ln_bound _ X) as LB.
  pose proof (expm1_ge _ (Rlt_le _ _ X)) as G1. pose proof (expm1_ge2 _ (Rlt_le _ _ X)) as G2.
  set (x := xx T w) in *. set (m := expm1 x) in *.
  assert (NK : 0 < NA P * KB P) by (apply Rmult_lt_0_compat; assumption).
  assert (A : 0 < x / m) by (apply Rdiv_lt_0_compat; assumption).
  assert (B : x / m <= 4 / x).
  { apply Rmult_le_reg_r with (m * x); [apply Rmult_lt_0_compat; assumption|].
    replace (x / m * (m * x)) with (x * x) by (field; lra).
    replace (4 / x * (m * x)) with (4 * m) by (field; lra). nra. }
  assert (C : 1 / m <= 1 / x).
  { unfold Rdiv. apply Rmult_le_compat_l; [lra|]. apply Rinv_le_contravar; assumption. }
  split.
  - apply Rmult_lt_0_compat; [exact NK|lra].
  - apply Rmult_le_compat_l; [lra|]. replace (5 / x) with (4 / x + 1 / x) by (field; lra). lra.
Qed.
Lemma S_nonneg T w : 0 <= T -> 0 <= ho_S P T w.
Proof.
  intros HT. destruct (Rle_or_lt w 0) as [Hw|Hw].
  - destruct (inert T w Hw) as (_ & _ & -> & _). lra.
  - destruct HT as [HT| <-]; [apply Rlt_le, S_bounds; assumption|].
    destruct (at_zero w) as (_ & -> & _). lra.
Qed.

Lemma sinh_ge x : 0 <= x -> x * exp (x / 2) <= expm1 x.
Proof.
  intros Hx. destruct Hx as [Hx| <-].
  2:{ unfold expm1. rewrite exp_0. lra. }
  (* g(t) = e^t - 1 - t e^{t/2}, g' = e^{t/2} (e^{t/2} - 1 - t/2) >= 0 *)
  set (g := fun t => exp t - 1 - t * exp (t / 2)).
  assert (D : forall t, is_derive g t (exp (t / 2) * (exp (t / 2) - 1 - t / 2))).
  { intros t. unfold g. auto_derive; [exact I|].
    replace (exp t) with (exp (t / 2) * exp (t / 2)) by (rewrite <- exp_plus; f_equal; lra).
    change (t * / 2) with (t / 2). field. }
  destruct (MVT_gen g 0 x (fun t => exp (t / 2) * (exp (t / 2) - 1 - t / 2))) as [c [Hc Ec]].
  - intros t _. apply D.
  - intros t _. apply derivable_continuous_pt. apply ex_derive_Reals_0. eexists. apply D.
  - unfold g in Ec at 2. rewrite exp_0 in Ec. unfold g in Ec. unfold expm1.
    assert (0 <= exp (c / 2) * (exp (c / 2) - 1 - c / 2)).
    { apply Rmult_le_pos; [apply Rlt_le, exp_pos|]. pose proof (exp_ineq1_le (c / 2)). lra. }
    assert (0 <= exp (c / 2) * (exp (c / 2) - 1 - c / 2) * (x - 0)) by (apply Rmult_le_pos; lra).
    lra.
Qed.

Lemma Cv_pos T w : 0 < T -> 0 < w -> 0 < ho_Cv P T w.
Proof.
  intros HT Hw. rewrite Cv_val by assumption.
  pose proof (xx_pos T w HT Hw) as X. pose proof (expm1_pos _ X) as E.
  apply Rmult_lt_0_compat; [|apply pow_lt, Rdiv_lt_0_compat; assumption].
  apply Rmult_lt_0_compat; [|apply exp_pos]. apply Rmult_lt_0_compat; assumption.
Qed.
Lemma Cv_le T w : 0 < T -> 0 < w -> ho_Cv P T w <= NA P * KB P.
Proof.
  intros HT Hw. rewrite Cv_val by assumption.
  pose proof (xx_pos T w HT Hw) as X. pose proof (expm1_pos _ X) as E.
  pose proof (sinh_ge _ (Rlt_le _ _ X)) as G.
  assert (NK : 0 < NA P * KB P) by (apply Rmult_lt_0_compat; assumption).
  rewrite Rmult_assoc. rewrite <- (Rmult_1_r (NA P * KB P)) at 2.
  apply Rmult_le_compat_l; [lra|].
  set (x := xx T w) in *. set (m := expm1 x) in *.
  replace (exp x) with (exp (x / 2) ^ 2) by (simpl; rewrite Rmult_1_r, <- exp_plus; f_equal; lra).
  rewrite <- Rpow_mult_distr.
  assert (A : 0 <= exp (x / 2) * (x / m) <= 1).
  { split. { apply Rmult_le_pos; [apply Rlt_le, exp_pos|]. apply Rlt_le, Rdiv_lt_0_compat; assumption. }
    apply Rmult_le_reg_r with m; [exact E|].
    replace (exp (x / 2) * (x / m) * m) with (x * exp (x / 2)) by (field; lra). lra. }
  nra.
Qed.
Lemma Cv_bounds T w : 0 <= T -> 0 <= ho_Cv P T w <= NA P * KB P.
Proof.
  intros HT. assert (NK : 0 < NA P * KB P) by (apply Rmult_lt_0_compat; assumption).
  destruct (Rle_or_lt w 0) as [Hw|Hw].
  - destruct (inert T w Hw) as (_ & _ & _ & _ & ->). lra.
  - destruct HT as [HT| <-].
    + split; [apply Rlt_le, Cv_pos|apply Cv_le]; assumption.
    + destruct (at_zero w) as (_ & _ & -> & _). lra.
Qed.
(** decay of Cv at low temperature *)
Lemma Cv_decay T w : 0 < T -> 0 < w ->
  ho_Cv P T w <= NA P * KB P * (27 / xx T w * (1 + 1 / xx T w)).
Proof.
  intros HT Hw. rewrite Cv_val by assumption.
  pose proof (xx_pos T w HT Hw) as X. pose proof (expm1_pos _ X) as E.
  pose proof (expm1_ge _ (Rlt_le _ _ X)) as G1. pose proof (expm1_ge3 _ (Rlt_le _ _ X)) as G3.
  assert (NK : 0 < NA P * KB P) by (apply Rmult_lt_0_compat; assumption).
  rewrite Rmult_assoc. apply Rmult_le_compat_l; [lra|].
  set (x := xx T w) in *.
  replace (exp x) with (expm1 x + 1) by (unfold expm1; lra). set (m := expm1 x) in *.
  replace ((m + 1) * (x / m) ^ 2) with (x ^ 2 / m * (1 + 1 / m)) by (field; lra).
  assert (A : x ^ 2 / m <= 27 / x).
  { apply Rmult_le_reg_r with (m * x); [apply Rmult_lt_0_compat; assumption|].
    replace (x ^ 2 / m * (m * x)) with (x ^ 3) by (field; lra).
    replace (27 / x * (m * x)) with (27 * m) by (field; lra). lra. }
  assert (B : 1 / m <= 1 / x).
  { unfold Rdiv. apply Rmult_le_compat_l; [lra|]. apply Rinv_le_contravar; assumption. }
  assert (0 <= x ^ 2 / m) by (apply Rlt_le, Rdiv_lt_0_compat; [apply pow_lt|]; assumption).
  assert (0 < 1 / m) by (apply Rdiv_lt_0_compat; lra).
  apply Rmult_le_compat; lra.
Qed.

Lemma F_le_zpe T w : 0 <= T -> ho_F P T w <= ho_zpe P T w.
Proof.
  intros HT. destruct (Rle_or_lt w 0) as [Hw|Hw].
  - destruct (inert T w Hw) as (-> & _ & _ & -> & _). lra.
  - destruct HT as [HT| <-].
    + rewrite F_val, zpe_pos_val by assumption.
      pose proof (ln_neg _ (xx_pos T w HT Hw)).
      apply Rmult_le_compat_l; [lra|].
      assert (0 < KB P * T) by (apply Rmult_lt_0_compat; assumption). nra.
    + destruct (at_zero w) as (_ & _ & _ & ->). unfold ho_zpe. lra.
Qed.
Lemma F_lt_zpe T w : 0 < T -> 0 < w -> ho_F P T w < ho_zpe P T w.
Proof.
  intros HT Hw. rewrite F_val, zpe_pos_val by assumption.
  pose proof (ln_neg _ (xx_pos T w HT Hw)).
  apply Rmult_lt_compat_l; [lra|].
  assert (0 < KB P * T) by (apply Rmult_lt_0_compat; assumption). nra.
Qed.

(** Monotonicity *)
Lemma eth_mono T1 T2 w : 0 <= T1 -> T1 <= T2 -> ho_eth P T1 w <= ho_eth P T2 w.
Proof.
  intros H1 H2. destruct (Rle_or_lt w 0) as [Hw|Hw].
  { destruct (inert T1 w Hw) as (_ & -> & _). destruct (inert T2 w Hw) as (_ & -> & _). lra. }
  destruct H2 as [H2| <-]; [|lra].
  destruct H1 as [H1| <-].
  - apply Rlt_le. apply (incr_function (fun t => ho_eth P t w) (Finite 0) p_infty (fun t => ho_Cv P t w / 1000)); simpl; auto.
    + intros x Hx _. apply eth_derive; assumption.
    + intros x Hx _. apply Rdiv_lt_0_compat; [apply Cv_pos|]; lra.
  - destruct (at_zero w) as (-> & _). apply Rlt_le, eth_pos; assumption.
Qed.
Lemma eth_mono_strict T1 T2 w : 0 <= T1 -> T1 < T2 -> 0 < w -> ho_eth P T1 w < ho_eth P T2 w.
Proof.
  intros H1 H2 Hw. destruct H1 as [H1| <-].
  - apply (incr_function (fun t => ho_eth P t w) (Finite 0) p_infty (fun t => ho_Cv P t w / 1000)); simpl; auto.
    + intros x Hx _. apply eth_derive; assumption.
    + intros x Hx _. apply Rdiv_lt_0_compat; [apply Cv_pos|]; lra.
  - destruct (at_zero w) as (-> & _). apply eth_pos; assumption.
Qed.
Lemma S_mono_strict T1 T2 w : 0 <= T1 -> T1 < T2 -> 0 < w -> ho_S P T1 w < ho_S P T2 w.
Proof.
  intros H1 H2 Hw. destruct H1 as [H1| <-].
  - apply (incr_function (fun t => ho_S P t w) (Finite 0) p_infty (fun t => ho_Cv P t w / t)); simpl; auto.
    + intros x Hx _. apply S_derive; assumption.
    + intros x Hx _. apply Rdiv_lt_0_compat; [apply Cv_pos|]; lra.
  - destruct (at_zero w) as (_ & -> & _). apply S_bounds; assumption.
Qed.
Lemma S_mono T1 T2 w : 0 <= T1 -> T1 <= T2 -> ho_S P T1 w <= ho_S P T2 w.
Proof.
  intros H1 H2. destruct (Rle_or_lt w 0) as [Hw|Hw].
  { destruct (inert T1 w Hw) as (_ & _ & -> & _). destruct (inert T2 w Hw) as (_ & _ & -> & _). lra. }
  destruct H2 as [H2| <-]; [|lra]. apply Rlt_le, S_mono_strict; assumption.
Qed.
Lemma F_mono_strict T1 T2 w : 0 <= T1 -> T1 < T2 -> 0 < w -> ho_F P T2 w < ho_F P T1 w.
Proof.
  intros H1 H2 Hw. destruct H1 as [H1| <-].
  - apply Ropp_lt_cancel.
    apply (incr_function (fun t => - ho_F P t w) (Finite 0) p_infty (fun t => ho_S P t w / 1000)); simpl; auto.
    + intros x Hx _. replace (ho_S P x w / 1000) with (opp (- ho_S P x w / 1000)) by (unfold opp; simpl; lra).
      apply (is_derive_opp (fun t => ho_F P t w)). apply F_derive; assumption.
    + intros x Hx _. apply Rdiv_lt_0_compat; [apply S_bounds|]; lra.
  - destruct (at_zero w) as (_ & _ & _ & ->).
    replace (ho_zpe P 0 w) with (ho_zpe P T2 w) by reflexivity. apply F_lt_zpe; assumption.
Qed.
Lemma F_mono T1 T2 w : 0 <= T1 -> T1 <= T2 -> ho_F P T2 w <= ho_F P T1 w.
Proof.
  intros H1 H2. destruct (Rle_or_lt w 0) as [Hw|Hw].
  { destruct (inert T1 w Hw) as (_ & _ & _ & -> & _). destruct (inert T2 w Hw) as (_ & _ & _ & -> & _). lra. }
  destruct H2 as [H2| <-]; [|lra]. apply Rlt_le, F_mono_strict; assumption.
Qed.

(** Linear bounds near T = 0 (0 < T <= 1) used for the limits *)
Lemma S_lin T w : 0 < w -> 0 < T ->
  Rabs (ho_S P T w - 0) <= NA P * KB P * 5 * KB P / (hpl P * w) * T.
Proof.
  intros Hw HT. destruct (S_bounds T w HT Hw) as [A B].
  rewrite Rminus_0_r, Rabs_pos_eq by lra. eapply Rle_trans; [exact B|].
  right. unfold xx. field. repeat split; lra.
Qed.
Lemma eth_lin T w : 0 < T -> Rabs (ho_eth P T w - 0) <= / 1000 * NA P * KB P * T.
Proof. intros HT. destruct (eth_bounds T w (Rlt_le _ _ HT)). rewrite Rminus_0_r, Rabs_pos_eq; lra. Qed.
Lemma Cv_lin T w : 0 < w -> 0 < T <= 1 ->
  Rabs (ho_Cv P T w - 0) <= NA P * KB P * 27 * (KB P / (hpl P * w)) * (1 + KB P / (hpl P * w)) * T.
Proof.
  intros Hw [HT HT1]. pose proof (Cv_pos T w HT Hw). pose proof (Cv_decay T w HT Hw) as D.
  rewrite Rminus_0_r, Rabs_pos_eq by lra. eapply Rle_trans; [exact D|].
  set (k := KB P / (hpl P * w)).
  assert (0 < k) by (apply Rdiv_lt_0_compat; [|apply Rmult_lt_0_compat]; assumption).
  replace (27 / xx T w) with (27 * k * T) by (unfold k, xx; field; repeat split; lra).
  replace (1 / xx T w) with (k * T) by (unfold k, xx; field; repeat split; lra).
  assert (NK : 0 < NA P * KB P) by (apply Rmult_lt_0_compat; assumption).
  replace (NA P * KB P * 27 * k * (1 + k) * T) with (NA P * KB P * (27 * k * T * (1 + k))) by ring.
  apply Rmult_le_compat_l; [lra|]. apply Rmult_le_compat_l; [|nra].
  apply Rmult_le_pos; nra.
Qed.
Lemma F_lin T w : 0 < T -> 0 < w ->
  Rabs (ho_F P T w - ho_zpe P T w) <= / 1000 * NA P * KB P * (KB P / (hpl P * w)) * T * T.
Proof.
  intros HT Hw. rewrite F_val, zpe_pos_val by assumption.
  pose proof (xx_pos T w HT Hw) as X. pose proof (ln_neg _ X) as L. pose proof (ln_bound _ X) as LB.
  pose proof (expm1_pos _ X) as E. pose proof (expm1_ge _ (Rlt_le _ _ X)) as G1.
  assert (C : 1 / expm1 (xx T w) <= 1 / xx T w).
  { unfold Rdiv. apply Rmult_le_compat_l; [lra|]. apply Rinv_le_contravar; assumption. }
  match goal with |- Rabs ?a <= _ => replace a with (- (/ 1000 * NA P * (KB P * T) * - ln (1 - exp (- xx T w)))) by ring end.
  rewrite Rabs_Ropp. assert (0 < KB P * T) by (apply Rmult_lt_0_compat; assumption).
  assert (Q : 0 < / 1000 * NA P * (KB P * T)) by (apply Rmult_lt_0_compat; lra).
  rewrite Rabs_pos_eq by (apply Rmult_le_pos; lra).
  apply Rle_trans with (/ 1000 * NA P * (KB P * T) * (1 / xx T w)).
  - apply Rmult_le_compat_l; lra.
  - right. unfold xx. field. repeat split; lra.
Qed.

End Modes.
