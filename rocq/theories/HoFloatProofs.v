(** Rounding analysis of the oscillator functions (behind C83). *)
From Coq Require Import Reals List ZArith Lia Lra Psatz Bool.
From Flocq Require Import Core Relative.
From Verif Require Import ParModel StatMechModel GridFloatModel GridFloatProofs HoFloatModel HoFloatSpec.
Import ListNotations.
Open Scope R_scope.
Global Opaque bpow.


Ltac bp := rewrite <- ?bpow_plus; apply bpow_le; lia.
Lemma b2_pos n : 0 < b2 n.
Proof. apply bpow_gt_0. Qed.
Lemma b2_0 : b2 0 = 1.
Proof. apply bpow_0 || reflexivity. Qed.
Lemma b2_nat n : b2 (Z.of_nat n) = 2 ^ n.
Proof.
  induction n; [reflexivity|]. rewrite Nat2Z.inj_succ. unfold Z.succ. rewrite bpow_plus, IHn. simpl. change (b2 1) with 2. ring.
Qed.
Lemma b2_1 : b2 1 = 2. Proof. reflexivity. Qed.
Lemma b2_split a b c : (c = a + b)%Z -> b2 c = b2 a * b2 b.
Proof. intros ->. apply bpow_plus. Qed.

(** * One operation *)
Lemma rnd_err x : Rabs (rnd x - x) <= u * Rabs x + b2 (-1075).
Proof.
  unfold rnd. destruct (error_N_FLT radix2 (-1074) 53 ltac:(lia) (fun x => negb (Z.even x)) x) as (e & h & He & Hh & _ & E).
  rewrite E. replace (x * (1 + e) + h - x) with (x * e + h) by ring.
  eapply Rle_trans; [apply Rabs_triang|]. rewrite Rabs_mult, Rmult_comm.
  apply Rplus_le_compat.
  - apply Rmult_le_compat_r; [apply Rabs_pos|]. eapply Rle_trans; [exact He|]. unfold u.
    change (- (53) + 1)%Z with (-52)%Z. rewrite (b2_split 1 (-53) (-52)) by lia. rewrite b2_1. lra.
  - eapply Rle_trans; [exact Hh|]. rewrite (b2_split 1 (-1075) (-1074)) by lia. rewrite b2_1. lra.
Qed.
Lemma u_small : u <= / 1000000000000000.
Proof. rewrite u_value. lra. Qed.
Lemma rnd_abs x : Rabs (rnd x) <= 2 * Rabs x + b2 (-1075).
Proof.
  pose proof (rnd_err x). pose proof u_small. pose proof (Rabs_pos x).
  replace (rnd x) with (x + (rnd x - x)) by ring. eapply Rle_trans; [apply Rabs_triang|].
  assert (u * Rabs x <= 1 * Rabs x) by (apply Rmult_le_compat_r; lra). lra.
Qed.
Lemma rnd_0 : rnd 0 = 0.
Proof. unfold rnd. apply round_0; auto with typeclass_instances. Qed.
Lemma result_fin x : Rabs x <= b2 1000 -> result x = Fin (rnd x).
Proof.
  intros H. unfold result, fit, Rlt_b. destruct (Rlt_dec _ _) as [_|N]; [reflexivity|]. exfalso. apply N.
  pose proof (rnd_abs x).
  assert (b2 (-1075) <= b2 1000) by bp. assert (4 * b2 1000 <= b2 1024) by (change 4 with (b2 2); bp). pose proof (b2_pos 1000). lra.
Qed.
Lemma mul_fin x y : Rabs (x * y) <= b2 1000 -> fmul (Fin x) (Fin y) = Fin (rnd (x * y)).
Proof. intros H. cbn [fmul]. now apply result_fin. Qed.
Lemma add_fin x y : Rabs (x + y) <= b2 1000 -> fadd (Fin x) (Fin y) = Fin (rnd (x + y)).
Proof. intros H. cbn [fadd]. now apply result_fin. Qed.
Lemma div_fin x y : y <> 0 -> Rabs (x / y) <= b2 1000 -> fdiv (Fin x) (Fin y) = Some (Fin (rnd (x / y))).
Proof.
  intros N H. cbn [fdiv]. unfold Req_b. destruct (Req_EM_T y 0); [contradiction|]. now rewrite result_fin.
Qed.

(** * Relative error in units of roundoff *)
Notation few k := (0 <= k <= 1000000).
Lemma few_u k : few k -> 0 <= k * u <= / 1000000000.
Proof.
  intros H. pose proof u_pos. pose proof u_small. split; [apply Rmult_le_pos; lra|].
  apply Rle_trans with (1000000 * / 1000000000000000); [apply Rmult_le_compat; lra|lra].
Qed.
Lemma near_refl a : near a a 0.
Proof. unfold near. rewrite Rminus_diag_eq by reflexivity. rewrite Rabs_R0. lra. Qed.
Lemma near_weaken a b k l : near a b k -> k <= l -> near a b l.
Proof.
  unfold near. intros H L. pose proof u_pos. pose proof (Rabs_pos b).
  assert (k * u <= l * u) by (apply Rmult_le_compat_r; lra).
  assert (k * u * Rabs b <= l * u * Rabs b) by (apply Rmult_le_compat_r; lra). lra.
Qed.
Lemma near_abs a b k : near a b k -> few k -> Rabs a <= (1 + k * u) * Rabs b /\ (1 - k * u) * Rabs b <= Rabs a.
Proof.
  unfold near. intros H F. pose proof (Rabs_triang_inv a b). pose proof (Rabs_triang_inv b a). rewrite Rabs_minus_sym in H1. split; lra.
Qed.
Lemma near_trans a b c k l : near a b k -> near b c l -> few k -> few l -> near a c (k + l + 1).
Proof.
  intros H1 H2 K L. destruct (near_abs _ _ _ H2 L) as [B _]. unfold near in *. destruct (few_u k K) as [K1 K2]. destruct (few_u l L) as [L1 L2].
  pose proof u_pos. pose proof (Rabs_pos c). replace (a - c) with ((a - b) + (b - c)) by ring.
  eapply Rle_trans; [apply Rabs_triang|].
  assert (k * u * Rabs b <= k * u * ((1 + l * u) * Rabs c)) by (apply Rmult_le_compat_l; lra).
  assert (k * u * (l * u) <= u).
  { replace (k * u * (l * u)) with (u * (k * (l * u))) by ring. rewrite <- (Rmult_1_r u) at 3. apply Rmult_le_compat_l; [lra|].
    apply Rle_trans with (1000000 * / 1000000000); [apply Rmult_le_compat; lra|lra]. }
  assert (k * u * (l * u) * Rabs c <= u * Rabs c) by (apply Rmult_le_compat_r; lra). lra.
Qed.
Lemma near_mul a b c d k l : near a b k -> near c d l -> few k -> few l -> near (a * c) (b * d) (k + l + 1).
Proof.
  intros H1 H2 K L. destruct (near_abs _ _ _ H2 L) as [B _]. unfold near in *. destruct (few_u k K) as [K1 K2]. destruct (few_u l L) as [L1 L2].
  pose proof u_pos. pose proof (Rabs_pos d). pose proof (Rabs_pos b). pose proof (Rabs_pos c). replace (a * c - b * d) with ((a - b) * c + b * (c - d)) by ring.
  eapply Rle_trans; [apply Rabs_triang|]. rewrite !Rabs_mult.
  assert (Rabs (a - b) * Rabs c <= (k * u * Rabs b) * ((1 + l * u) * Rabs d)) by (apply Rmult_le_compat; try apply Rabs_pos; lra).
  assert (Rabs b * Rabs (c - d) <= Rabs b * (l * u * Rabs d)) by (apply Rmult_le_compat_l; lra).
  assert (k * u * (l * u) <= u).
  { replace (k * u * (l * u)) with (u * (k * (l * u))) by ring. rewrite <- (Rmult_1_r u) at 3. apply Rmult_le_compat_l; [lra|].
    apply Rle_trans with (1000000 * / 1000000000); [apply Rmult_le_compat; lra|lra]. }
  assert (0 <= Rabs b * Rabs d) by (apply Rmult_le_pos; lra).
  assert (k * u * (l * u) * (Rabs b * Rabs d) <= u * (Rabs b * Rabs d)) by (apply Rmult_le_compat_r; lra).
  lra.
Qed.
Lemma near_inv c d k : near c d k -> few k -> d <> 0 -> near (/ c) (/ d) (k + 1).
Proof.
  intros H K D. destruct (near_abs _ _ _ H K) as [_ B]. unfold near in *. destruct (few_u k K) as [K1 K2]. pose proof u_pos.
  assert (PD : 0 < Rabs d) by (now apply Rabs_pos_lt).
  assert (PC : 0 < Rabs c) by nra. assert (NC : c <> 0) by (intros ->; rewrite Rabs_R0 in PC; lra).
  replace (/ c - / d) with ((d - c) * (/ c * / d)) by (field; auto). rewrite !Rabs_mult, !Rabs_inv, Rabs_minus_sym.
  rewrite <- Rmult_assoc. apply Rmult_le_compat_r; [left; now apply Rinv_0_lt_compat|].
  apply Rmult_le_reg_r with (Rabs c); [exact PC|]. rewrite Rmult_assoc, Rinv_l by lra.
  eapply Rle_trans; [rewrite Rmult_1_r; exact H|].
  apply Rle_trans with ((k + 1) * u * ((1 - k * u) * Rabs d)); [|apply Rmult_le_compat_l; [apply Rmult_le_pos; lra|exact B]].
  replace ((k + 1) * u * ((1 - k * u) * Rabs d)) with ((u + k * u - (k + 1) * (k * u) * u) * Rabs d) by ring.
  apply Rmult_le_compat_r; [lra|].
  assert ((k + 1) * (k * u) <= 1) by (apply Rle_trans with (1000001 * / 1000000000); [apply Rmult_le_compat; lra|lra]).
  assert ((k + 1) * (k * u) * u <= 1 * u) by (apply Rmult_le_compat_r; lra). lra.
Qed.
Lemma near_div a b c d k l : near a b k -> near c d l -> few k -> few (l + 1) -> 0 <= l -> d <> 0 -> near (a / c) (b / d) (k + l + 2).
Proof.
  intros H1 H2 K L L0 D. apply (near_weaken _ _ (k + (l + 1) + 1)); [|lra]. apply near_mul; auto. apply near_inv; auto. lra.
Qed.
Lemma near_rnd x : b2 (-1000) <= Rabs x -> near (rnd x) x 2.
Proof.
  intros H. unfold near. pose proof (rnd_err x). assert (b2 (-1075) <= u * Rabs x); [|lra].
  apply Rle_trans with (u * b2 (-1000)); [unfold u; bp|]. apply Rmult_le_compat_l; [left; apply u_pos|exact H].
Qed.
Lemma near_rnd_of a b k : near a b k -> few k -> b2 (-999) <= Rabs b -> near (rnd a) b (k + 3).
Proof.
  intros H K B. destruct (near_abs _ _ _ H K) as [_ L]. destruct (few_u k K) as [K1 K2].
  apply (near_weaken _ _ (2 + k + 1)); [|lra]. apply near_trans with a; [|exact H|lra|exact K]. apply near_rnd.
  rewrite (b2_split 1 (-1000) (-999)), b2_1 in B by lia. pose proof (Rabs_pos b). nra.
Qed.
(** A positive number and its approximations. *)
Lemma near_between a b k : near a b k -> few k -> 0 < b -> b / 2 <= a <= 2 * b.
Proof.
  unfold near. intros H K B. destruct (few_u k K) as [K1 K2]. rewrite (Rabs_pos_eq b) in H by lra.
  assert (k * u * b <= / 1000000000 * b) by (apply Rmult_le_compat_r; lra).
  apply Rabs_def2b in H || (pose proof (Rle_abs (a - b)); pose proof (Rle_abs (- (a - b))); rewrite Rabs_Ropp in *); lra.
Qed.

Lemma tiny_pos : 0 < tiny. Proof. unfold tiny. pose proof (b2_pos (-1074)). lra. Qed.
Lemma tiny_small x : b2 (-1000) <= x -> tiny <= u * x.
Proof.
  intros H. apply Rle_trans with (u * b2 (-1000)).
  - unfold tiny, u. rewrite <- bpow_plus. apply Rle_trans with (b2 (-1074)); [pose proof (b2_pos (-1074)); lra|bp].
  - apply Rmult_le_compat_l; [left; apply u_pos|exact H].
Qed.
Lemma good_fin f g D x : good f g D -> double x -> Rabs x < b2 1024 -> D x -> g x < b2 1023 ->
  exists y, f x = Fin y /\ double y /\ Rabs (y - g x) <= 2 * u * Rabs (g x) + tiny.
Proof.
  intros G X R0 H S. destruct (G x X R0 H) as [(y & A & B & _ & E)|[_ O]]; [exists y; auto|lra].
Qed.
Lemma good_near f g D x : good f g D -> double x -> Rabs x < b2 1024 -> D x -> g x < b2 1023 -> b2 (-1000) <= Rabs (g x) ->
  exists y, f x = Fin y /\ double y /\ near y (g x) 3.
Proof.
  intros G X R0 H S L. destruct (good_fin f g D x G X R0 H S) as (y & A & B & E). exists y. split; [exact A|]. split; [exact B|].
  unfold near. pose proof (tiny_small _ L). lra.
Qed.

(** * Elementary inequalities *)
Lemma exp_small z : Rabs z <= / 2 -> Rabs (exp z - 1) <= 2 * Rabs z.
Proof.
  intros H. pose proof (exp_ineq1_le z). pose proof (exp_ineq1_le (- z)).
  assert (E : exp z * exp (- z) = 1) by (rewrite <- exp_plus, Rplus_opp_r; apply exp_0).
  pose proof (exp_pos z). destruct (Rle_or_lt 0 z) as [P|N].
  - rewrite (Rabs_pos_eq z) in * by lra. rewrite Rabs_pos_eq by lra. nra.
  - rewrite (Rabs_left z) in * by lra. rewrite Rabs_left1; nra.
Qed.
Lemma expm1_pos x : 0 < x -> x < expm1 x.
Proof. intros H. unfold expm1. pose proof (exp_ineq1 x ltac:(lra)). lra. Qed.
Lemma exp_times_expm1 x : 0 <= x -> x * exp x <= (1 + x) * expm1 x.
Proof. intros H. unfold expm1. pose proof (exp_ineq1_le x). lra. Qed.
Lemma ratio_le_1 x : 0 < x -> 0 < x / expm1 x <= 1.
Proof.
  intros H. pose proof (expm1_pos x H). split; [apply Rdiv_lt_0_compat; lra|]. apply Rmult_le_reg_r with (expm1 x); [lra|].
  unfold Rdiv. rewrite Rmult_assoc, Rinv_l by lra. lra.
Qed.
(** e^x >= (1 + x/2)^2 *)
Lemma exp_ge_square x : -2 <= x -> (1 + x / 2) ^ 2 <= exp x.
Proof.
  intros H. replace x with (x / 2 + x / 2) at 2 by field. rewrite exp_plus. pose proof (exp_ineq1_le (x / 2)). nra.
Qed.
Lemma ratio_x x : 0 < x -> x * (x / expm1 x) <= 4.
Proof.
  intros H. pose proof (expm1_pos x H). apply Rmult_le_reg_r with (expm1 x); [lra|].
  replace (x * (x / expm1 x) * expm1 x) with (x * x) by (field; lra). pose proof (exp_ge_square x ltac:(lra)). unfold expm1 in *. nra.
Qed.
Lemma exp_monotone a b : a <= b -> exp a <= exp b.
Proof. intros [H| ->]; [left; now apply exp_increasing|lra]. Qed.
Lemma exp_INR n a : exp (INR n * a) = exp a ^ n.
Proof. induction n; [simpl; rewrite Rmult_0_l; apply exp_0|]. rewrite S_INR. simpl. rewrite <- IHn, <- exp_plus. f_equal. ring. Qed.
Lemma exp_big n y : INR n <= y -> b2 (Z.of_nat n) <= exp y.
Proof.
  intros H. apply Rle_trans with (exp (INR n * 1)); [|apply exp_monotone; lra]. rewrite exp_INR, b2_nat. apply pow_incr.
  pose proof (exp_ineq1_le 1). lra.
Qed.
Lemma exp_300 y : y <= 300 -> exp y <= b2 480.
Proof.
  intros H. apply Rle_trans with (exp (INR 60 * 5)); [apply exp_monotone; simpl; lra|]. rewrite exp_INR.
  change 480%Z with (Z.of_nat (8 * 60)). rewrite b2_nat, pow_mult. apply pow_incr. split; [left; apply exp_pos|].
  replace 5 with (INR 5 * 1) by (simpl; lra). rewrite exp_INR. apply Rle_trans with (3 ^ 5); [|lra]. apply pow_incr.
  split; [left; apply exp_pos|apply exp_le_3].
Qed.
Lemma below_exp x : x <= exp x. Proof. pose proof (exp_ineq1_le x). lra. Qed.
Lemma exp_neg_big n y : INR n <= y -> exp (- y) <= b2 (- Z.of_nat n).
Proof.
  intros H. rewrite exp_Ropp, bpow_opp. apply Rinv_le; [apply b2_pos|now apply exp_big].
Qed.
Lemma ln_diff a b k : 0 < k -> k <= a -> k <= b -> Rabs (ln a - ln b) <= Rabs (a - b) / k.
Proof.
  intros K A B.
  assert (L : forall p q, k <= p -> k <= q -> ln p - ln q <= Rabs (p - q) / k).
  { intros p q P Q. replace (ln p - ln q) with (ln (p / q)) by (unfold Rdiv; rewrite ln_mult, ln_Rinv; try lra; apply Rinv_0_lt_compat; lra).
    assert (PQ : 0 < p / q) by (apply Rdiv_lt_0_compat; lra).
    assert (ln (p / q) <= p / q - 1). { pose proof (exp_ineq1_le (ln (p / q))). rewrite exp_ln in H by exact PQ. lra. }
    apply Rle_trans with (1 := H). replace (p / q - 1) with ((p - q) / q) by (field; lra).
    apply Rle_trans with (Rabs (p - q) / q); [apply Rmult_le_compat_r; [left; apply Rinv_0_lt_compat; lra|apply Rle_abs]|].
    apply Rmult_le_compat_l; [apply Rabs_pos|]. apply Rinv_le; lra. }
  pose proof (L a b A B). pose proof (L b a B A). rewrite (Rabs_minus_sym b a) in H0. apply Rabs_le. lra.
Qed.
Lemma ln_abs d : 0 < d -> Rabs (ln d) <= / d + d.
Proof.
  intros H. pose proof (exp_ineq1_le (ln d)). rewrite exp_ln in H0 by exact H.
  pose proof (exp_ineq1_le (- ln d)). rewrite exp_Ropp, exp_ln in H1 by exact H. pose proof (Rinv_0_lt_compat d H). apply Rabs_le. lra.
Qed.

(** * One oscillator *)
Section Oscillator.
Variable m : libm.
Hypothesis M : accurate m.
Variable P : phys.
Hypothesis PH : codata_sized P.
Variables T w : R.
Hypothesis RE : box T w.
Hypothesis LO : b2 (-40) <= xi P T w.
Notation hp := (hpl P).
Notation K := (KB P).
Notation N := (NA P).
Let hw := hp * w.
Let kT := K * T.
Let x := hw / kT.
Let hw' := rnd hw.
Let kT' := rnd kT.
Let y := rnd (hw' / kT').

Lemma between_mul a b c d p q : 0 <= a -> 0 <= c -> a <= p <= b -> c <= q <= d -> a * c <= p * q <= b * d.
Proof. intros. split; apply Rmult_le_compat; lra. Qed.
Lemma hw_bounds : b2 (-211) <= hw <= b2 (-10).
Proof.
  destruct PH as (A & _ & _). destruct RE as (_ & B). pose proof (b2_pos (-111)). pose proof (b2_pos (-100)).
  rewrite (b2_split (-111) (-100) (-211)), (b2_split (-110) 100 (-10)) by lia. unfold hw. apply between_mul; lra.
Qed.
Lemma kT_bounds : b2 (-176) <= kT <= b2 25.
Proof.
  destruct PH as (_ & A & _). destruct RE as (B & _). pose proof (b2_pos (-76)). pose proof (b2_pos (-100)).
  rewrite (b2_split (-76) (-100) (-176)), (b2_split (-75) 100 25) by lia. unfold kT. apply between_mul; lra.
Qed.
Lemma hw_pos : 0 < hw. Proof. pose proof hw_bounds. pose proof (b2_pos (-211)). lra. Qed.
Lemma kT_pos : 0 < kT. Proof. pose proof kT_bounds. pose proof (b2_pos (-176)). lra. Qed.
Lemma x_lower : b2 (-40) <= x.
Proof. exact LO. Qed.
Lemma x_weak_lower : b2 (-236) <= x.
Proof.
  pose proof hw_bounds. pose proof kT_bounds. pose proof kT_pos. pose proof hw_pos. unfold x, Rdiv.
  rewrite (b2_split (-211) (-25) (-236)) by lia. apply Rmult_le_compat; [left; apply b2_pos|left; apply b2_pos|lra|].
  change (-25)%Z with (- (25))%Z. rewrite bpow_opp. apply Rinv_le; lra.
Qed.
Lemma x_pos : 0 < x.
Proof. pose proof x_weak_lower. pose proof (b2_pos (-236)). lra. Qed.
Lemma x_upper : x <= b2 166.
Proof.
  pose proof hw_bounds. pose proof kT_bounds. pose proof kT_pos. pose proof hw_pos. unfold x, Rdiv.
  rewrite (b2_split (-10) 176 166) by lia. apply Rmult_le_compat; [lra|left; apply Rinv_0_lt_compat; lra|lra|].
  change 176%Z with (- (-176))%Z. rewrite bpow_opp. apply Rinv_le; [apply b2_pos|lra].
Qed.
Lemma hw_near : near hw' hw 2.
Proof. apply near_rnd. rewrite Rabs_pos_eq by (left; apply hw_pos). pose proof hw_bounds. apply Rle_trans with (b2 (-211)); [bp|lra]. Qed.
Lemma kT_near : near kT' kT 2.
Proof. apply near_rnd. rewrite Rabs_pos_eq by (left; apply kT_pos). pose proof kT_bounds. apply Rle_trans with (b2 (-176)); [bp|lra]. Qed.
Lemma hw_fin : fmul (fH P) (Fin w) = Fin hw'.
Proof. apply mul_fin. fold hw. rewrite Rabs_pos_eq by (left; apply hw_pos). pose proof hw_bounds. apply Rle_trans with (b2 (-10)); [lra|bp]. Qed.
Lemma kT_fin : fmul (fKB P) (Fin T) = Fin kT'.
Proof. apply mul_fin. fold kT. rewrite Rabs_pos_eq by (left; apply kT_pos). pose proof kT_bounds. apply Rle_trans with (b2 25); [lra|bp]. Qed.
Lemma kT'_bounds : kT / 2 <= kT' <= 2 * kT.
Proof. apply (near_between _ _ 2); [apply kT_near|lra|apply kT_pos]. Qed.
Lemma hw'_bounds : hw / 2 <= hw' <= 2 * hw.
Proof. apply (near_between _ _ 2); [apply hw_near|lra|apply hw_pos]. Qed.
Lemma kT'_pos : 0 < kT'. Proof. pose proof kT'_bounds. pose proof kT_pos. lra. Qed.
Lemma quotient_near : near (hw' / kT') x 6.
Proof. apply (near_weaken _ _ (2 + 2 + 2)); [|lra]. apply near_div; try lra; [apply hw_near|apply kT_near|apply Rgt_not_eq, kT_pos]. Qed.
Lemma y_near : near y x 9.
Proof.
  apply (near_weaken _ _ (6 + 3)); [|lra]. apply near_rnd_of; [apply quotient_near|lra|]. rewrite Rabs_pos_eq by (left; apply x_pos).
  pose proof x_weak_lower. apply Rle_trans with (b2 (-236)); [bp|lra].
Qed.
Lemma y_bounds : x / 2 <= y <= 2 * x.
Proof. apply (near_between _ _ 9); [apply y_near|lra|apply x_pos]. Qed.
Lemma y_pos : 0 < y. Proof. pose proof y_bounds. pose proof x_pos. lra. Qed.
Lemma y_close : Rabs (y - x) <= 9 * u * x.
Proof. pose proof y_near as Q. unfold near in Q. now rewrite (Rabs_pos_eq x) in Q by (left; apply x_pos). Qed.
Lemma y_fin : fdiv (Fin hw') (Fin kT') = Some (Fin y).
Proof.
  apply div_fin; [apply Rgt_not_eq, kT'_pos|]. pose proof quotient_near as Q. destruct (near_between _ _ 6 Q ltac:(lra) x_pos) as [A B].
  pose proof x_pos. rewrite Rabs_pos_eq by lra. pose proof x_upper. apply Rle_trans with (b2 1 * b2 166); [rewrite b2_1; lra|bp].
Qed.
Lemma y_double : double y. Proof. apply double_rnd. Qed.
Lemma y_range : Rabs y < b2 1024.
Proof.
  rewrite Rabs_pos_eq by (left; apply y_pos). pose proof y_bounds. pose proof x_upper.
  apply Rle_lt_trans with (b2 1 * b2 166); [rewrite b2_1; lra|]. rewrite <- bpow_plus. apply bpow_lt. lia.
Qed.
Lemma y_lower : b2 (-41) <= y.
Proof. pose proof y_bounds. pose proof x_lower as L. rewrite (b2_split 1 (-41) (-40)), b2_1 in L by lia. lra. Qed.

(** Moderate quanta. *)
Section Moderate.
Hypothesis Y : y <= 300.
Lemma x_moderate : x <= 301.
Proof. pose proof y_close. pose proof u_small. pose proof x_pos. pose proof (Rle_abs (- (y - x))). rewrite Rabs_Ropp in *. assert (9 * u * x <= / 100000000000000 * x) by (apply Rmult_le_compat_r; lra). lra. Qed.
Lemma exp_diff : Rabs (exp y - exp x) <= 18 * x * u * exp x.
Proof.
  pose proof y_close. pose proof x_moderate. pose proof x_pos. pose proof u_small. pose proof u_pos.
  replace (exp y - exp x) with (exp x * (exp (y - x) - 1)).
  - rewrite Rabs_mult, (Rabs_pos_eq (exp x)) by (left; apply exp_pos). rewrite Rmult_comm. apply Rmult_le_compat_r; [left; apply exp_pos|].
    assert (9 * u * x <= / 2) by (apply Rle_trans with (9 * / 1000000000000000 * 301); [apply Rmult_le_compat; lra|lra]).
    pose proof (exp_small (y - x) ltac:(lra)). lra.
  - rewrite Rmult_minus_distr_l, <- exp_plus, Rmult_1_r. do 2 f_equal. ring.
Qed.
Lemma exp_near : near (exp y) (exp x) (18 * x).
Proof. unfold near. rewrite (Rabs_pos_eq (exp x)) by (left; apply exp_pos). apply exp_diff. Qed.
Lemma expm1_near : near (expm1 y) (expm1 x) (18 * (1 + x)).
Proof.
  pose proof x_pos as X0. pose proof (expm1_pos x X0). unfold near. rewrite (Rabs_pos_eq (expm1 x)) by lra.
  replace (expm1 y - expm1 x) with (exp y - exp x) by (unfold expm1; ring). eapply Rle_trans; [apply exp_diff|].
  pose proof (exp_times_expm1 x ltac:(lra)). pose proof u_pos.
  assert (18 * u * (x * exp x) <= 18 * u * ((1 + x) * expm1 x)) by (apply Rmult_le_compat_l; lra). lra.
Qed.
Definition ke := 18 * (1 + x) + 4.
Lemma ke_few : 0 <= ke <= 10000.
Proof. pose proof x_moderate. pose proof x_pos. unfold ke. lra. Qed.
Lemma y_exp_upper : exp y <= b2 480. Proof. now apply exp_300. Qed.
Lemma em_moderate : exists e, f_expm1 m (Fin y) = Fin e /\ near e (expm1 x) ke.
Proof.
  pose proof y_pos as Y0. pose proof (expm1_pos y Y0). pose proof y_exp_upper. pose proof y_lower.
  destruct (good_near _ _ _ y (expm1_good m M) y_double y_range I) as (e & A & _ & B).
  - unfold expm1. apply Rlt_le_trans with (b2 480); [lra|bp].
  - rewrite Rabs_pos_eq by lra. apply Rle_trans with (b2 (-41)); [bp|lra].
  - exists e. split; [exact A|]. apply (near_weaken _ _ (3 + 18 * (1 + x) + 1)); [|unfold ke; lra].
    pose proof x_moderate. pose proof x_pos. apply near_trans with (expm1 y); [exact B|apply expm1_near|lra|lra].
Qed.
Lemma ex_moderate : exists e, f_exp m (Fin y) = Fin e /\ near e (exp x) (18 * x + 4).
Proof.
  pose proof y_pos as Y0. pose proof y_exp_upper. pose proof (exp_ineq1_le y).
  destruct (good_near _ _ _ y (exp_good m M) y_double y_range I) as (e & A & _ & B).
  - apply Rle_lt_trans with (b2 480); [lra|apply bpow_lt; lia].
  - rewrite Rabs_pos_eq by lra. apply Rle_trans with (b2 0); [bp|rewrite b2_0; lra].
  - exists e. split; [exact A|]. apply (near_weaken _ _ (3 + 18 * x + 1)); [|lra].
    pose proof x_moderate. pose proof x_pos. apply near_trans with (exp y); [exact B|apply exp_near|lra|lra].
Qed.
Lemma expm1_x_upper : expm1 x <= b2 484.
Proof.
  pose proof x_pos as X0. pose proof x_moderate. destruct (near_between _ _ _ expm1_near) as [A _]; [lra|pose proof (expm1_pos x X0); lra|].
  pose proof y_exp_upper. unfold expm1 in A at 2. apply Rle_trans with (b2 1 * b2 480); [rewrite b2_1; lra|bp].
Qed.
Lemma ratio_lower : b2 (-490) <= x / expm1 x.
Proof.
  pose proof x_lower. pose proof x_pos as X0. pose proof (expm1_pos x X0). pose proof expm1_x_upper.
  (* for x <= 1 the ratio is at least 1/3, otherwise at least 1/expm1 *)
  destruct (Rle_or_lt 1 x) as [G|L].
  - apply Rle_trans with (/ b2 484); [rewrite <- bpow_opp; bp|]. apply Rle_trans with (1 / expm1 x).
    + unfold Rdiv. rewrite Rmult_1_l. apply Rinv_le; lra.
    + apply Rmult_le_compat_r; [left; apply Rinv_0_lt_compat; lra|lra].
  - apply Rle_trans with (b2 (-2)); [bp|]. assert (exp x <= 1 + 3 * x).
    { destruct (Rle_or_lt x (/ 2)) as [S|S].
      - pose proof (exp_small x) as Q. rewrite (Rabs_pos_eq x) in Q by lra. specialize (Q S). pose proof (Rle_abs (exp x - 1)). lra.
      - assert (exp x = exp (x / 2) * exp (x / 2)) by (rewrite <- exp_plus; f_equal; field).
        pose proof (exp_small (x / 2)) as Q. rewrite (Rabs_pos_eq (x / 2)) in Q by lra. specialize (Q ltac:(lra)). pose proof (Rle_abs (exp (x / 2) - 1)).
        pose proof (exp_pos (x / 2)). nra. }
    apply Rmult_le_reg_r with (expm1 x); [lra|]. replace (x / expm1 x * expm1 x) with x by (field; lra).
    unfold expm1 in *. replace (b2 (-2)) with (/ 4) by reflexivity. lra.
Qed.
End Moderate.

(** Large quanta: everything thermal is negligible. *)
Section Large.
Hypothesis Y : 300 < y.
Lemma x_large : 299 <= x.
Proof.
  destruct (Rle_or_lt 299 x) as [A|A]; [exact A|]. exfalso. pose proof y_close. pose proof u_small. pose proof x_pos. pose proof (Rle_abs (y - x)).
  assert (9 * u * x <= / 100000000000000 * x) by (apply Rmult_le_compat_r; lra). lra.
Qed.
Lemma exp_y_large : b2 300 <= exp y.
Proof. change 300%Z with (Z.of_nat 300). apply exp_big. rewrite INR_IZR_INZ. cbn. lra. Qed.
Lemma exp_x_large : b2 299 <= exp x.
Proof. change 299%Z with (Z.of_nat 299). apply exp_big. rewrite INR_IZR_INZ. cbn. apply x_large. Qed.
Lemma half_expm1 z : 1 <= z -> exp z / 2 <= expm1 z.
Proof. intros Z. unfold expm1. pose proof (exp_ineq1_le z). lra. Qed.
(** z/expm1 z and z^2 e^z/(expm1 z)^2 decrease like exponentials *)
Lemma ratio_small z : 298 <= z -> z / expm1 z <= b2 (-140).
Proof.
  intros Z. pose proof (half_expm1 z ltac:(lra)). pose proof (exp_pos z).
  assert (E : exp z = exp (z / 2) * exp (z / 2)) by (rewrite <- exp_plus; f_equal; field).
  pose proof (below_exp (z / 2)). pose proof (exp_pos (z / 2)).
  assert (b2 149 <= exp (z / 2)) by (change 149%Z with (Z.of_nat 149); apply exp_big; rewrite INR_IZR_INZ; cbn; lra).
  apply Rle_trans with (4 / exp (z / 2)).
  - apply Rmult_le_reg_r with (expm1 z); [lra|]. replace (z / expm1 z * expm1 z) with z by (field; lra).
    apply Rle_trans with (4 / exp (z / 2) * (exp z / 2)); [rewrite E; field_simplify; lra|]. apply Rmult_le_compat_l; [|lra].
    apply Rlt_le, Rdiv_lt_0_compat; lra.
  - apply Rle_trans with (b2 2 * b2 (-149)); [|bp]. change (b2 2) with 4. apply Rmult_le_compat_l; [lra|]. replace (b2 (-149)) with (/ b2 149) by (now rewrite <- bpow_opp).
    apply Rinv_le; [apply b2_pos|lra].
Qed.
Lemma em_large : f_expm1 m (Fin y) = Inf false \/ exists e, f_expm1 m (Fin y) = Fin e /\ exp y / 4 <= e < b2 1024.
Proof.
  destruct (expm1_good m M y y_double y_range I) as [(e & A & _ & R0 & B)|[A _]]; [right|left; exact A].
  exists e. split; [exact A|]. pose proof (half_expm1 y ltac:(lra)) as HE. pose proof exp_y_large. pose proof (exp_pos y).
  rewrite (Rabs_pos_eq (expm1 y)) in B by lra. pose proof u_small. pose proof u_pos.
  assert (tiny <= u * expm1 y) by (apply tiny_small; apply Rle_trans with (b2 299); [bp|]; rewrite (b2_split 1 299 300), b2_1 in * by lia; lra).
  pose proof (Rle_abs (- (e - expm1 y))) as AB. rewrite Rabs_Ropp in AB. pose proof (Rle_abs e).
  assert (u * expm1 y <= / 1000000000000000 * expm1 y) by (apply Rmult_le_compat_r; lra). split; lra.
Qed.
End Large.

Lemma T_pos : 0 < T. Proof. destruct RE as (A & _). pose proof (b2_pos (-100)). lra. Qed.
Lemma w_pos : 0 < w. Proof. destruct RE as (_ & A). pose proof (b2_pos (-100)). lra. Qed.
Lemma w_guard : Rle_b w 0 = false.
Proof. unfold Rle_b. destruct (Rle_dec w 0); [pose proof w_pos; lra|reflexivity]. Qed.
Lemma T_guard : Req_b T 0 = false.
Proof. unfold Req_b. destruct (Req_EM_T T 0); [pose proof T_pos; lra|reflexivity]. Qed.

(** The constant factors. *)
Definition M0 := / 1000 * N.
Lemma M0_bounds : b2 68 <= M0 <= b2 79.
Proof.
  destruct PH as (_ & _ & A). unfold M0. pose proof (b2_pos 78). split.
  - apply Rle_trans with (b2 (-10) * b2 78); [bp|]. apply Rmult_le_compat; [left; apply b2_pos|lra| |lra]. replace (b2 (-10)) with (/ 1024) by reflexivity. lra.
  - apply Rle_trans with (b2 0 * b2 79); [|bp]. apply Rmult_le_compat; [lra|lra| |lra]. rewrite b2_0. lra.
Qed.
Lemma M0_pos : 0 < M0. Proof. pose proof M0_bounds. pose proof (b2_pos 68). lra. Qed.
Let mn := rnd (milli m * N).
Lemma milli_near : near (milli m * N) M0 3.
Proof. apply (near_weaken _ _ (2 + 0 + 1)); [|lra]. apply near_mul; [apply (milli_good m M)|apply near_refl|lra|lra]. Qed.
Lemma mn_near : near mn M0 6.
Proof.
  apply (near_weaken _ _ (3 + 3)); [|lra]. apply near_rnd_of; [apply milli_near|lra|]. pose proof M0_bounds. pose proof M0_pos.
  rewrite Rabs_pos_eq by lra. apply Rle_trans with (b2 68); [bp|lra].
Qed.
Lemma mn_bounds : M0 / 2 <= mn <= 2 * M0.
Proof. apply (near_between _ _ 6); [apply mn_near|lra|apply M0_pos]. Qed.
Lemma mn_fin : fmul (fmilli m) (fNA P) = Fin mn.
Proof.
  apply mul_fin. destruct (near_between _ _ 3 milli_near ltac:(lra) M0_pos) as [A B]. pose proof M0_pos. rewrite Rabs_pos_eq by lra.
  pose proof M0_bounds. apply Rle_trans with (b2 1 * b2 79); [rewrite b2_1; lra|bp].
Qed.
Definition NK := N * K.
Lemma NK_bounds : b2 2 <= NK <= b2 4.
Proof.
  destruct PH as (_ & A & B). pose proof (b2_pos (-76)). pose proof (b2_pos 78). unfold NK.
  rewrite (b2_split 78 (-76) 2), (b2_split 79 (-75) 4) by lia. apply between_mul; lra.
Qed.
Lemma NK_pos : 0 < NK. Proof. pose proof NK_bounds. pose proof (b2_pos 2). lra. Qed.
Let nk := rnd NK.
Lemma nk_near : near nk NK 2.
Proof. apply near_rnd. pose proof NK_bounds. pose proof NK_pos. rewrite Rabs_pos_eq by lra. apply Rle_trans with (b2 2); [bp|lra]. Qed.
Lemma nk_bounds : NK / 2 <= nk <= 2 * NK.
Proof. apply (near_between _ _ 2); [apply nk_near|lra|apply NK_pos]. Qed.
Lemma nk_fin : fmul (fNA P) (fKB P) = Fin nk.
Proof. apply mul_fin. fold NK. pose proof NK_bounds. pose proof NK_pos. rewrite Rabs_pos_eq by lra. apply Rle_trans with (b2 4); [lra|bp]. Qed.

(** Product of approximations, rounded. *)
Lemma step_mul a b c d k l : near a b k -> near c d l -> 0 <= k -> 0 <= l -> k + l <= 900000 -> 0 < b -> 0 < d -> b2 (-999) <= b * d <= b2 900 ->
  fmul (Fin a) (Fin c) = Fin (rnd (a * c)) /\ near (rnd (a * c)) (b * d) (k + l + 4).
Proof.
  intros A B K0 L0 S0 Pb Pd R0. assert (Q : near (a * c) (b * d) (k + l + 1)) by (apply near_mul; auto; lra).
  assert (Z : 0 < b * d) by (now apply Rmult_lt_0_compat). split.
  - apply mul_fin. destruct (near_between _ _ _ Q ltac:(lra) Z). rewrite Rabs_pos_eq by lra. apply Rle_trans with (b2 1 * b2 900); [rewrite b2_1; lra|bp].
  - apply (near_weaken _ _ (k + l + 1 + 3)); [|lra]. apply near_rnd_of; [exact Q|lra|]. rewrite Rabs_pos_eq by lra. lra.
Qed.
Lemma step_div a b c d k l : near a b k -> near c d l -> 0 <= k -> 0 <= l -> k + l <= 900000 -> 0 < b -> 0 < d -> b2 (-999) <= b / d <= b2 900 ->
  fdiv (Fin a) (Fin c) = Some (Fin (rnd (a / c))) /\ near (rnd (a / c)) (b / d) (k + l + 5).
Proof.
  intros A B K0 L0 S0 Pb Pd R0. assert (Q : near (a / c) (b / d) (k + l + 2)) by (apply near_div; auto; lra).
  assert (Z : 0 < b / d) by (now apply Rdiv_lt_0_compat). split.
  - apply div_fin; [destruct (near_between _ _ _ B ltac:(lra) Pd); lra|]. destruct (near_between _ _ _ Q ltac:(lra) Z). rewrite Rabs_pos_eq by lra. apply Rle_trans with (b2 1 * b2 900); [rewrite b2_1; lra|bp].
  - apply (near_weaken _ _ (k + l + 2 + 3)); [|lra]. apply near_rnd_of; [exact Q|lra|]. rewrite Rabs_pos_eq by lra. lra.
Qed.

(** Zero-point energy. *)
Lemma zpe_error : exists v, ho_zpe_f m P T w = Fin v /\ near v (ho_zpe P T w) 18.
Proof.
  unfold ho_zpe_f, ho_zpe. rewrite w_guard, mn_fin. pose proof PH as (A & _ & _). pose proof RE as (_ & B). pose proof w_pos. pose proof M0_pos. pose proof M0_bounds.
  assert (0 < hp) by (pose proof (b2_pos (-111)); lra). pose proof (b2_pos (-111)). pose proof (b2_pos (-100)). pose proof (b2_pos 68).
  assert (B1 : b2 (-43) <= M0 * hp <= b2 (-31)).
  { rewrite (b2_split 68 (-111) (-43)), (b2_split 79 (-110) (-31)) by lia. apply between_mul; lra. }
  assert (B2 : b2 (-101) <= w * (1 / 2) <= b2 99).
  { rewrite (b2_split (-100) (-1) (-101)), (b2_split 100 (-1) 99) by lia. replace (b2 (-1)) with (/ 2) by reflexivity. lra. }
  destruct (step_mul mn M0 hp hp 6 0) as [F1 Q1]; [apply mn_near|apply near_refl|lra|lra|lra|lra|lra|split; eapply Rle_trans; [|apply B1|apply B1|]; bp|].
  unfold fH. rewrite F1.
  destruct (step_mul w w (1 / 2) (1 / 2) 0 0) as [F2 Q2]; [apply near_refl|apply near_refl|lra|lra|lra|lra|lra|split; eapply Rle_trans; [|apply B2|apply B2|]; bp|].
  rewrite F2. assert (0 < M0 * hp) by (now apply Rmult_lt_0_compat). pose proof (b2_pos (-43)). pose proof (b2_pos (-101)).
  destruct (step_mul (rnd (mn * hp)) (M0 * hp) (rnd (w * (1 / 2))) (w * (1 / 2)) (6 + 0 + 4) (0 + 0 + 4)) as [F3 Q3]; [exact Q1|exact Q2|lra|lra|lra|lra|lra| |].
  { split; [apply Rle_trans with (b2 (-43) * b2 (-101)); [bp|]|apply Rle_trans with (b2 (-31) * b2 99); [|bp]]; apply Rmult_le_compat; lra. }
  rewrite F3. eexists. split; [reflexivity|]. apply (near_weaken _ _ (6 + 0 + 4 + (0 + 0 + 4) + 4)); [exact Q3|lra].
Qed.

(** Thermal energy. *)
Lemma between_div a b c d p q : 0 <= a -> 0 < c -> a <= p <= b -> c <= q <= d -> a / d <= p / q <= b / c.
Proof.
  intros A C Bp Bq. split; apply Rmult_le_compat; try lra; try (left; apply Rinv_0_lt_compat; lra); apply Rinv_le; lra.
Qed.
Lemma b2_inv n : / b2 n = b2 (- n). Proof. symmetry. apply bpow_opp. Qed.
Lemma eth_exact : ho_eth P T w = M0 * (hw / expm1 x).
Proof. unfold ho_eth. rewrite w_guard, T_guard. reflexivity. Qed.
Lemma eth_moderate : y <= 300 -> exists v, ho_eth_f m P T w = Fin v /\ near v (ho_eth P T w) (64 * (1 + x)).
Proof.
  intros Y. rewrite eth_exact. unfold ho_eth_f. rewrite w_guard, T_guard. cbn [orb]. rewrite hw_fin, kT_fin, y_fin. cbn [bindf].
  destruct (em_moderate Y) as (e & E & Q). rewrite E. pose proof (x_moderate Y) as X1. pose proof x_pos as X0. pose proof (ke_few Y) as KE.
  pose proof (expm1_pos x X0) as EP. pose proof (expm1_x_upper Y) as EU. pose proof hw_bounds as HB. pose proof hw_pos as HP. pose proof x_lower as XL.
  assert (B1 : b2 (-695) <= hw / expm1 x <= b2 30).
  { pose proof (between_div (b2 (-211)) (b2 (-10)) (b2 (-40)) (b2 484) hw (expm1 x)) as [L U]; [left; apply b2_pos|apply b2_pos|lra|lra|].
    split; [eapply Rle_trans; [|exact L]|eapply Rle_trans; [exact U|]]; unfold Rdiv; rewrite b2_inv; bp. }
  destruct (step_div hw' hw e (expm1 x) 2 ke) as [F1 Q1]; [apply hw_near|exact Q|lra|lra|lra|lra|lra|split; eapply Rle_trans; [|apply B1|apply B1|]; bp|].
  rewrite F1. cbn [bindf unraisable]. rewrite mn_fin. pose proof M0_bounds as MB. pose proof M0_pos as MP. pose proof (b2_pos 68). pose proof (b2_pos (-695)).
  destruct (step_mul mn M0 (rnd (hw' / e)) (hw / expm1 x) 6 (2 + ke + 5)) as [F2 Q2]; [apply mn_near|exact Q1|lra|lra|lra|lra|lra| |].
  { split; [apply Rle_trans with (b2 68 * b2 (-695)); [bp|]|apply Rle_trans with (b2 79 * b2 30); [|bp]]; apply Rmult_le_compat; lra. }
  rewrite F2. eexists. split; [reflexivity|]. eapply near_weaken; [exact Q2|]. unfold ke. lra.
Qed.
Lemma inv_exp_y : 300 < y -> / exp y <= b2 (-300).
Proof. intros Y. change (-300)%Z with (- (300))%Z. rewrite <- b2_inv. apply Rinv_le; [apply b2_pos|now apply exp_y_large]. Qed.
Lemma eth_large : 300 < y -> exists v, ho_eth_f m P T w = Fin v /\ Rabs (v - ho_eth P T w) <= b2 (-280) * (M0 * hw).
Proof.
  intros Y. rewrite eth_exact. unfold ho_eth_f. rewrite w_guard, T_guard. cbn [orb]. rewrite hw_fin, kT_fin, y_fin. cbn [bindf].
  pose proof hw_pos as HP. pose proof M0_pos as MP. pose proof hw'_bounds as HB'. pose proof hw_bounds as HB. pose proof M0_bounds as MB.
  assert (MH : 0 < M0 * hw) by (now apply Rmult_lt_0_compat).
  assert (EX : 0 <= M0 * (hw / expm1 x) <= b2 (-290) * (M0 * hw)).
  { pose proof (x_large Y) as XL. pose proof (half_expm1 x ltac:(lra)) as HE. pose proof (exp_x_large Y) as XE. pose proof (exp_pos x).
    assert (I : / expm1 x <= b2 (-290)).
    { change (-290)%Z with (- (290))%Z. rewrite <- b2_inv. apply Rinv_le; [apply b2_pos|].
      apply Rle_trans with (b2 298); [bp|]. rewrite (b2_split 1 298 299), b2_1 in XE by lia. lra. }
    assert (0 < / expm1 x) by (apply Rinv_0_lt_compat; lra). split.
    - apply Rmult_le_pos; [lra|]. apply Rmult_le_pos; lra.
    - unfold Rdiv. rewrite <- Rmult_assoc, (Rmult_comm (b2 _)). apply Rmult_le_compat_l; lra. }
  assert (V : forall q, Rabs q <= b2 (-285) * hw -> exists v, fmul (Fin mn) (Fin q) = Fin v /\ Rabs v <= b2 (-282) * (M0 * hw)).
  { intros q Q. pose proof mn_bounds as MM. eexists. assert (A : Rabs (mn * q) <= 2 * M0 * (b2 (-285) * hw)).
    { rewrite Rabs_mult, (Rabs_pos_eq mn) by lra. apply Rmult_le_compat; try lra. apply Rabs_pos. }
    pose proof (b2_pos (-285)) as B285. split.
    - apply mul_fin. apply Rle_trans with (1 := A). apply Rle_trans with (b2 1 * b2 79 * (b2 (-285) * b2 (-10))); [|bp]. rewrite b2_1.
      apply Rmult_le_compat; try lra; [apply Rmult_le_pos; lra|]. apply Rmult_le_compat_l; lra.
    - eapply Rle_trans; [apply rnd_abs|]. assert (b2 (-1075) <= b2 (-285) * (M0 * hw)).
      { apply Rle_trans with (b2 (-285) * (b2 68 * b2 (-211))); [bp|]. apply Rmult_le_compat_l; [lra|]. apply Rmult_le_compat; try lra; left; apply b2_pos. }
      assert (5 * b2 (-285) <= b2 (-282)) by (rewrite (b2_split 3 (-285) (-282)) by lia; change (b2 3) with 8; lra).
      assert (5 * b2 (-285) * (M0 * hw) <= b2 (-282) * (M0 * hw)) by (apply Rmult_le_compat_r; lra). lra. }
  assert (C : b2 (-282) * (M0 * hw) + b2 (-290) * (M0 * hw) <= b2 (-280) * (M0 * hw)).
  { rewrite <- Rmult_plus_distr_r. apply Rmult_le_compat_r; [lra|]. assert (b2 (-290) <= b2 (-282)) by bp. rewrite (b2_split 2 (-282) (-280)) by lia. change (b2 2) with 4. pose proof (b2_pos (-282)). lra. }
  destruct (em_large Y) as [E|(e & E & EB & _)]; rewrite E.
  - cbn [fdiv bindf unraisable]. rewrite mn_fin. destruct (V 0) as (v & F & B); [rewrite Rabs_R0; apply Rmult_le_pos; [left; apply b2_pos|lra]|].
    rewrite F. exists v. split; [reflexivity|]. eapply Rle_trans; [apply Rabs_triang|]. rewrite Rabs_Ropp, (Rabs_pos_eq (M0 * _)) by lra. lra.
  - pose proof (exp_pos y). pose proof (inv_exp_y Y) as IE. assert (QB : 0 <= hw' / e <= b2 (-297) * hw).
    { assert (0 < / e) by (apply Rinv_0_lt_compat; lra). split; [apply Rmult_le_pos; lra|].
      apply Rle_trans with (2 * hw * (4 * / exp y)).
      - apply Rmult_le_compat; try lra. replace (4 * / exp y) with (/ (exp y / 4)) by (field; lra). apply Rinv_le; lra.
      - rewrite (b2_split 3 (-300) (-297)) by lia. change (b2 3) with 8. assert (hw * / exp y <= hw * b2 (-300)) by (apply Rmult_le_compat_l; lra). lra. }
    rewrite div_fin; [|lra|].
    + cbn [bindf unraisable]. rewrite mn_fin. destruct (V (rnd (hw' / e))) as (v & F & B).
      * eapply Rle_trans; [apply rnd_abs|]. rewrite Rabs_pos_eq by lra. assert (b2 (-1075) <= b2 (-297) * hw).
        { apply Rle_trans with (b2 (-297) * b2 (-211)); [bp|]. apply Rmult_le_compat_l; [left; apply b2_pos|lra]. }
        assert (3 * b2 (-297) <= b2 (-285)) by (apply Rle_trans with (b2 2 * b2 (-297)); [change (b2 2) with 4; pose proof (b2_pos (-297)); lra|bp]).
        assert (3 * b2 (-297) * hw <= b2 (-285) * hw) by (apply Rmult_le_compat_r; lra). lra.
      * rewrite F. exists v. split; [reflexivity|]. eapply Rle_trans; [apply Rabs_triang|]. rewrite Rabs_Ropp, (Rabs_pos_eq (M0 * _)) by lra. lra.
    + rewrite Rabs_pos_eq by lra. apply Rle_trans with (1 := proj2 QB). apply Rle_trans with (b2 (-297) * b2 (-10)); [|bp]. apply Rmult_le_compat_l; [left; apply b2_pos|lra].
Qed.

(** The occupation term of the entropy: n x. *)
Lemma nx_error : exists n nx, fdiv (Fin 1) (f_expm1 m (Fin y)) = Some (Fin n) /\ fmul (Fin n) (Fin y) = Fin nx /\ Rabs (nx - x / expm1 x) <= 112 * u.
Proof.
  pose proof x_pos as X0. pose proof (expm1_pos x X0) as EP. pose proof u_pos as U0. pose proof y_pos as Y0.
  destruct (Rle_or_lt y 300) as [Y|Y].
  - destruct (em_moderate Y) as (e & E & Q). rewrite E. pose proof (x_moderate Y) as X1. pose proof (ke_few Y) as KE.
    pose proof (expm1_x_upper Y) as EU. pose proof x_lower as XL. pose proof (ratio_lower Y) as RL. pose proof (ratio_le_1 x X0) as RU.
    assert (B1 : b2 (-484) <= 1 / expm1 x <= b2 40).
    { unfold Rdiv. rewrite Rmult_1_l. change (-484)%Z with (- (484))%Z. change 40%Z with (- (-40))%Z. rewrite <- !b2_inv.
      split; apply Rinv_le; try apply b2_pos; lra. }
    destruct (step_div 1 1 e (expm1 x) 0 ke) as [F1 Q1]; [apply near_refl|exact Q|lra|lra|lra|lra|lra|split; eapply Rle_trans; [|apply B1|apply B1|]; bp|].
    exists (rnd (1 / e)), (rnd (rnd (1 / e) * y)). split; [exact F1|].
    assert (EQ : 1 / expm1 x * x = x / expm1 x) by (field; lra).
    destruct (step_mul (rnd (1 / e)) (1 / expm1 x) y x (0 + ke + 5) 9) as [F2 Q2]; [exact Q1|apply y_near|lra|lra|lra|pose proof (b2_pos (-484)); lra|lra| |].
    { rewrite EQ. split; [apply Rle_trans with (b2 (-490)); [bp|exact RL]|apply Rle_trans with 1; [lra|rewrite <- b2_0; bp]]. }
    split; [exact F2|]. rewrite EQ in Q2. unfold near in Q2. rewrite (Rabs_pos_eq (x / expm1 x)) in Q2 by lra. eapply Rle_trans; [exact Q2|].
    pose proof (ratio_x x X0) as RX. unfold ke.
    replace ((0 + (18 * (1 + x) + 4) + 5 + 9 + 4) * u * (x / expm1 x)) with (u * (40 * (x / expm1 x) + 18 * (x * (x / expm1 x)))) by ring.
    rewrite (Rmult_comm 112). apply Rmult_le_compat_l; lra.
  - pose proof (x_large Y) as XL. pose proof (ratio_small x ltac:(lra)) as RX. pose proof (ratio_le_1 x X0) as RP.
    assert (SM : 4 * b2 (-140) <= u) by (change 4 with (b2 2); unfold u; bp).
    destruct (em_large Y) as [E|(e & E & EB & _)]; rewrite E.
    + exists 0, 0. split; [reflexivity|]. split; [rewrite mul_fin; [now rewrite Rmult_0_l, rnd_0|rewrite Rmult_0_l, Rabs_R0; left; apply b2_pos]|].
      rewrite Rminus_0_l, Rabs_Ropp, Rabs_pos_eq by lra. pose proof (b2_pos (-140)). lra.
    + pose proof (exp_pos y). pose proof (inv_exp_y Y) as IE. assert (PE : 0 < / e) by (apply Rinv_0_lt_compat; lra).
      assert (IEB : / e <= 4 * / exp y) by (replace (4 * / exp y) with (/ (exp y / 4)) by (field; lra); apply Rinv_le; lra).
      assert (D : Rabs (1 / e) <= b2 1000).
      { unfold Rdiv. rewrite Rmult_1_l, Rabs_pos_eq by lra. apply Rle_trans with (b2 2 * b2 (-300)); [change (b2 2) with 4; lra|bp]. }
      set (n := rnd (1 / e)). assert (NB : Rabs n <= 2 * / e + b2 (-1075)).
      { pose proof (rnd_abs (1 / e)) as Q. unfold Rdiv in Q at 2. rewrite Rmult_1_l, (Rabs_pos_eq (/ e)) in Q by lra. exact Q. }
      assert (YE : y * / exp y <= b2 (-140)).
      { pose proof (ratio_small y ltac:(lra)) as Q. eapply Rle_trans; [|exact Q]. apply Rmult_le_compat_l; [lra|]. apply Rinv_le; [pose proof (expm1_pos y Y0); lra|unfold expm1; lra]. }
      assert (YB : y <= b2 167). { pose proof y_bounds. pose proof x_upper. rewrite (b2_split 1 166 167), b2_1 by lia. lra. }
      assert (NY : Rabs (n * y) <= 9 * b2 (-140)).
      { rewrite Rabs_mult, (Rabs_pos_eq y) by lra. assert (Rabs n * y <= (2 * / e + b2 (-1075)) * y) by (apply Rmult_le_compat_r; lra).
        assert (/ e * y <= 4 * / exp y * y) by (apply Rmult_le_compat_r; lra).
        assert (b2 (-1075) * y <= b2 (-140)) by (apply Rle_trans with (b2 (-1075) * b2 167); [apply Rmult_le_compat_l; [left; apply b2_pos|lra]|bp]). lra. }
      exists n, (rnd (n * y)). split; [apply div_fin; [lra|exact D]|].
      assert (LE : 16 * b2 (-140) <= b2 1000) by (change 16 with (b2 4); bp). pose proof (b2_pos (-140)).
      split; [apply mul_fin; lra|]. pose proof (rnd_abs (n * y)) as RA. assert (b2 (-1075) <= b2 (-140)) by bp.
      eapply Rle_trans; [apply Rabs_triang|]. rewrite Rabs_Ropp, (Rabs_pos_eq (x / expm1 x)) by lra. lra.
Qed.

(** The logarithm. *)
Definition A0 := 1 + / x.
Lemma A0_ge : 1 <= A0.
Proof. unfold A0. pose proof (Rinv_0_lt_compat x x_pos). lra. Qed.
Lemma A0_le : A0 <= b2 41.
Proof.
  unfold A0. pose proof x_lower as L. apply Rinv_le in L; [|apply b2_pos]. rewrite b2_inv in L. change (- (-40))%Z with 40%Z in L.
  rewrite (b2_split 1 40 41), b2_1 by lia. assert (b2 0 <= b2 40) by bp. rewrite b2_0 in *. lra.
Qed.
Lemma uA0 : u * A0 <= / 4000.
Proof.
  apply Rle_trans with (u * b2 41); [apply Rmult_le_compat_l; [left; apply u_pos|apply A0_le]|]. unfold u. rewrite <- bpow_plus.
  change (-53 + 41)%Z with (-12)%Z. replace (b2 (-12)) with (/ 4096) by reflexivity. lra.
Qed.
Lemma exp_neg_diff : Rabs (exp (- y) - exp (- x)) <= 18 * u.
Proof.
  pose proof x_pos as X0. pose proof u_pos as U0. pose proof y_pos as Y0. destruct (Rle_or_lt y 300) as [Y|Y].
  - pose proof (x_moderate Y). pose proof y_close as C. pose proof u_small.
    replace (exp (- y) - exp (- x)) with (exp (- x) * (exp (x - y) - 1)).
    + rewrite Rabs_mult, (Rabs_pos_eq (exp (- x))) by (left; apply exp_pos). rewrite Rabs_minus_sym in C.
      assert (9 * u * x <= / 2) by (apply Rle_trans with (9 * / 1000000000000000 * 301); [apply Rmult_le_compat; lra|lra]).
      pose proof (exp_small (x - y) ltac:(lra)) as Q.
      assert (XE : x * exp (- x) <= 1).
      { pose proof (exp_ineq1_le x). pose proof (exp_pos (- x)). assert (exp x * exp (- x) = 1) by (rewrite <- exp_plus, Rplus_opp_r; apply exp_0). nra. }
      apply Rle_trans with (exp (- x) * (2 * (9 * u * x))); [apply Rmult_le_compat_l; [left; apply exp_pos|lra]|].
      replace (exp (- x) * (2 * (9 * u * x))) with (18 * u * (x * exp (- x))) by ring. rewrite <- (Rmult_1_r (18 * u)) at 2. apply Rmult_le_compat_l; lra.
    + rewrite Rmult_minus_distr_l, <- exp_plus, Rmult_1_r. do 2 f_equal. ring.
  - pose proof (x_large Y).
    assert (E1 : exp (- y) <= u) by (apply Rle_trans with (b2 (- Z.of_nat 299)); [apply exp_neg_big; rewrite INR_IZR_INZ; cbn; lra|unfold u; apply bpow_le; lia]).
    assert (E2 : exp (- x) <= u) by (apply Rle_trans with (b2 (- Z.of_nat 299)); [apply exp_neg_big; rewrite INR_IZR_INZ; cbn; lra|unfold u; apply bpow_le; lia]).
    pose proof (exp_pos (- x)). pose proof (exp_pos (- y)). apply Rabs_le. lra.
Qed.
Definition D0 := 1 - exp (- x).
Lemma D0_pos : 0 < D0 <= 1.
Proof. unfold D0. pose proof (exp_pos (- x)). pose proof x_pos. assert (exp (- x) < exp 0) by (apply exp_increasing; lra). rewrite exp_0 in *. lra. Qed.
Lemma D0_inv : / D0 <= A0.
Proof.
  pose proof x_pos as X0. pose proof D0_pos. assert (L : / A0 <= D0).
  { unfold A0. replace (/ (1 + / x)) with (1 - / (1 + x)) by (field; lra). unfold D0.
    assert (exp (- x) <= / (1 + x)) by (rewrite exp_Ropp; apply Rinv_le; [lra|apply exp_ineq1_le]). lra. }
  rewrite <- (Rinv_inv A0). apply Rinv_le; [apply Rinv_0_lt_compat; pose proof A0_ge; lra|exact L].
Qed.
Lemma log_error : exists l, f_log m (fsub (Fin 1) (f_exp m (fneg (Fin y)))) = Fin l /\ Rabs (l - ln D0) <= 60 * u * A0 /\ Rabs (ln D0) <= 2 * A0.
Proof.
  pose proof u_pos as U0. pose proof u_small as US. pose proof y_pos as Y0. pose proof D0_pos as DP. pose proof D0_inv as DI. pose proof A0_ge as AG. pose proof uA0 as UA.
  assert (T75 : b2 (-1075) <= u) by (unfold u; bp). assert (TY : tiny <= u).
  { unfold tiny, u. apply Rle_trans with (b2 (-1074)); [pose proof (b2_pos (-1074)); lra|bp]. }
  assert (ND : double (- y)) by (unfold double; apply generic_format_opp, y_double).
  assert (E1 : exp (- y) < 1) by (rewrite <- exp_0; apply exp_increasing; lra). pose proof (exp_pos (- y)) as EP.
  assert (BIG : 2 <= b2 1023) by (rewrite <- b2_1; bp).
  destruct (good_fin _ _ _ (- y) (exp_good m M) ND) as (e & E & _ & B); [rewrite Rabs_Ropp; apply y_range|exact I|lra|].
  cbn [fneg f_exp]. rewrite E. rewrite (Rabs_pos_eq (exp (- y))) in B by lra.
  assert (B1 : Rabs (e - exp (- y)) <= 3 * u). { assert (2 * u * exp (- y) <= 2 * u * 1) by (apply Rmult_le_compat_l; lra). lra. }
  clear B. pose proof exp_neg_diff as ED.
  assert (B2 : Rabs (1 + - e - D0) <= 21 * u).
  { unfold D0. replace (1 + - e - (1 - exp (- x))) with (- ((e - exp (- y)) + (exp (- y) - exp (- x)))) by ring. rewrite Rabs_Ropp.
    eapply Rle_trans; [apply Rabs_triang|]. lra. }
  assert (B3 : Rabs (1 + - e) <= 2).
  { replace (1 + - e) with (D0 + (1 + - e - D0)) by ring. eapply Rle_trans; [apply Rabs_triang|]. rewrite (Rabs_pos_eq D0) by lra. lra. }
  set (d := rnd (1 + - e)).
  assert (B4 : Rabs (d - D0) <= 24 * u).
  { pose proof (rnd_err (1 + - e)) as Q. fold d in Q. assert (u * Rabs (1 + - e) <= u * 2) by (apply Rmult_le_compat_l; lra).
    replace (d - D0) with ((d - (1 + - e)) + (1 + - e - D0)) by ring. eapply Rle_trans; [apply Rabs_triang|]. lra. }
  assert (DL : 48 * u <= D0).
  { assert (48 * u * / D0 <= 1) by (apply Rle_trans with (48 * (u * A0)); [rewrite Rmult_assoc; apply Rmult_le_compat_l; [lra|]; apply Rmult_le_compat_l; lra|lra]).
    apply Rmult_le_reg_r with (/ D0); [apply Rinv_0_lt_compat; lra|]. rewrite Rinv_r by lra. exact H. }
  assert (B5 : D0 / 2 <= d <= 2). { pose proof (Rle_abs (d - D0)). pose proof (Rle_abs (- (d - D0))). rewrite Rabs_Ropp in *. lra. }
  unfold fsub. cbn [fneg]. rewrite add_fin by (apply Rle_trans with (1 := B3); rewrite <- b2_1; bp). fold d.
  cbn [f_log]. unfold Req_b. destruct (Req_EM_T d 0) as [Z|_]; [lra|]. unfold Rlt_b. destruct (Rlt_dec d 0) as [Z|_]; [lra|].
  assert (LN : ln d < b2 1023). { pose proof (exp_ineq1_le (ln d)) as Q. rewrite exp_ln in Q by lra. lra. }
  destruct (good_fin _ _ _ d (log_good m M) (double_rnd _)) as (l & F & _ & G); [|lra|exact LN|].
  { rewrite Rabs_pos_eq by lra. apply Rle_lt_trans with (b2 1); [rewrite b2_1; lra|apply bpow_lt; lia]. }
  exists l. split; [exact F|].
  assert (ID : / d <= 2 * A0).
  { apply Rle_trans with (/ (D0 / 2)); [apply Rinv_le; lra|]. replace (/ (D0 / 2)) with (2 * / D0) by (field; lra). lra. }
  assert (LD : Rabs (ln d) <= 4 * A0) by (pose proof (ln_abs d ltac:(lra)); lra).
  assert (L0 : Rabs (ln D0) <= 2 * A0) by (pose proof (ln_abs D0 ltac:(lra)); lra).
  split; [|exact L0].
  pose proof (ln_diff d D0 (D0 / 2) ltac:(lra) ltac:(lra) ltac:(lra)) as LD2.
  assert (LD3 : Rabs (d - D0) / (D0 / 2) <= 48 * u * A0).
  { replace (Rabs (d - D0) / (D0 / 2)) with (2 * Rabs (d - D0) * / D0) by (field; lra).
    apply Rmult_le_compat; [pose proof (Rabs_pos (d - D0)); lra|left; apply Rinv_0_lt_compat; lra|lra|lra]. }
  replace (l - ln D0) with ((l - ln d) + (ln d - ln D0)) by ring. eapply Rle_trans; [apply Rabs_triang|].
  assert (2 * u * Rabs (ln d) <= 2 * u * (4 * A0)) by (apply Rmult_le_compat_l; lra).
  assert (u * 1 <= u * A0) by (apply Rmult_le_compat_l; lra). lra.
Qed.

(** Entropy. *)
Lemma S_exact : ho_S P T w = NK * (x / expm1 x - ln D0).
Proof.
  unfold ho_S. rewrite w_guard, T_guard. cbn [orb]. fold hw kT. fold x. fold NK. unfold D0. f_equal. f_equal.
  pose proof (expm1_pos x x_pos). pose proof x_pos. field. lra.
Qed.
Lemma S_error : exists v, ho_S_f m P T w = Fin v /\ Rabs (v - ho_S P T w) <= 256 * u * (NK * A0).
Proof.
  rewrite S_exact. unfold ho_S_f. rewrite w_guard, T_guard. cbn [orb]. rewrite hw_fin, kT_fin, y_fin. cbn [bindf].
  destruct nx_error as (n & nx & F1 & F2 & B1). rewrite F1. cbn [bindf unraisable]. rewrite F2.
  destruct log_error as (l & F3 & B2 & B3). rewrite F3, nk_fin.
  pose proof u_pos as U0. pose proof u_small as US. pose proof A0_ge as AG. pose proof A0_le as AL. pose proof uA0 as UA. pose proof (ratio_le_1 x x_pos) as RX.
  assert (UA1 : u * 1 <= u * A0) by (apply Rmult_le_compat_l; lra).
  set (q := x / expm1 x - ln D0). assert (Q1 : Rabs (nx + - l - q) <= 172 * (u * A0)).
  { unfold q. replace (nx + - l - (x / expm1 x - ln D0)) with ((nx - x / expm1 x) + - (l - ln D0)) by ring. eapply Rle_trans; [apply Rabs_triang|]. rewrite Rabs_Ropp. lra. }
  assert (QB : Rabs q <= 3 * A0). { unfold q. eapply Rle_trans; [apply Rabs_triang|]. rewrite Rabs_Ropp, (Rabs_pos_eq (x / expm1 x)) by lra. lra. }
  assert (Q2 : Rabs (nx + - l) <= 4 * A0). { replace (nx + - l) with (q + (nx + - l - q)) by ring. eapply Rle_trans; [apply Rabs_triang|]. lra. }
  unfold fsub. cbn [fneg]. rewrite add_fin by (apply Rle_trans with (1 := Q2); apply Rle_trans with (b2 2 * b2 41); [change (b2 2) with 4; lra|bp]).
  set (t := rnd (nx + - l)). assert (T75 : b2 (-1075) <= u) by (unfold u; bp).
  assert (Q3 : Rabs (t - q) <= 177 * (u * A0)).
  { pose proof (rnd_err (nx + - l)) as Q. fold t in Q. assert (u * Rabs (nx + - l) <= u * (4 * A0)) by (apply Rmult_le_compat_l; lra).
    replace (t - q) with ((t - (nx + - l)) + (nx + - l - q)) by ring. eapply Rle_trans; [apply Rabs_triang|]. lra. }
  assert (TB : Rabs t <= 4 * A0). { replace t with (q + (t - q)) by ring. eapply Rle_trans; [apply Rabs_triang|]. lra. }
  pose proof nk_near as NN. pose proof nk_bounds as NB. pose proof NK_pos as NP. pose proof NK_bounds as NKB. unfold near in NN. rewrite (Rabs_pos_eq NK) in NN by lra.
  assert (P1 : Rabs (nk * t - NK * q) <= 185 * u * (NK * A0)).
  { replace (nk * t - NK * q) with ((nk - NK) * t + NK * (t - q)) by ring. eapply Rle_trans; [apply Rabs_triang|]. rewrite !Rabs_mult, (Rabs_pos_eq NK) by lra.
    assert (Rabs (nk - NK) * Rabs t <= 2 * u * NK * (4 * A0)) by (apply Rmult_le_compat; try apply Rabs_pos; lra).
    assert (NK * Rabs (t - q) <= NK * (177 * (u * A0))) by (apply Rmult_le_compat_l; lra). lra. }
  assert (P2 : Rabs (nk * t) <= 8 * (NK * A0)).
  { rewrite Rabs_mult, (Rabs_pos_eq nk) by lra. apply Rle_trans with (2 * NK * (4 * A0)); [apply Rmult_le_compat; try lra; apply Rabs_pos|lra]. }
  assert (NA0 : 0 < NK * A0) by (apply Rmult_lt_0_compat; lra).
  rewrite mul_fin.
  - eexists. split; [reflexivity|]. pose proof (rnd_err (nk * t)) as Q. assert (u * Rabs (nk * t) <= u * (8 * (NK * A0))) by (apply Rmult_le_compat_l; lra).
    assert (1 <= NK * A0). { assert (b2 0 <= NK) by (apply Rle_trans with (b2 2); [bp|lra]). rewrite b2_0 in *. rewrite <- (Rmult_1_r 1). apply Rmult_le_compat; lra. }
    assert (u * 1 <= u * (NK * A0)) by (apply Rmult_le_compat_l; lra).
    replace (rnd (nk * t) - NK * q) with ((rnd (nk * t) - nk * t) + (nk * t - NK * q)) by ring. eapply Rle_trans; [apply Rabs_triang|].
    lra.
  - apply Rle_trans with (1 := P2). apply Rle_trans with (b2 3 * (b2 4 * b2 41)); [|bp]. change (b2 3) with 8. apply Rmult_le_compat_l; [lra|]. apply Rmult_le_compat; lra.
Qed.

(** Free energy. *)
Lemma F_exact : ho_F P T w = M0 * (1 / 2 * hw + kT * ln D0).
Proof. unfold ho_F. rewrite w_guard, T_guard. fold hw kT. fold x. reflexivity. Qed.
Lemma F_error : exists v, ho_F_f m P T w = Fin v /\ Rabs (v - ho_F P T w) <= 128 * u * (M0 * (hw + kT * A0)).
Proof.
  rewrite F_exact. unfold ho_F_f. rewrite w_guard, T_guard, hw_fin, kT_fin, y_fin. cbn [bindf unraisable].
  destruct log_error as (l & F3 & B2 & B3). rewrite F3, mn_fin.
  pose proof u_pos as U0. pose proof u_small as US. pose proof A0_ge as AG. pose proof A0_le as AL. pose proof uA0 as UA.
  pose proof hw_pos as HP. pose proof hw_bounds as HB. pose proof kT_pos as KP. pose proof kT_bounds as KB0.
  destruct (step_mul (1 / 2) (1 / 2) hw' hw 0 2) as [F1 Q1]; [apply near_refl|apply hw_near|lra|lra|lra|lra|lra| |].
  { replace (1 / 2) with (b2 (-1)) by (change (b2 (-1)) with (/ 2); lra). split; [apply Rle_trans with (b2 (-1) * b2 (-211)); [bp|]|apply Rle_trans with (b2 (-1) * b2 (-10)); [|bp]]; apply Rmult_le_compat_l; try (left; apply b2_pos); lra. }
  rewrite F1. set (h := rnd (1 / 2 * hw')) in *. unfold near in Q1. rewrite (Rabs_pos_eq (1 / 2 * hw)) in Q1 by lra.
  pose proof kT_near as KN. unfold near in KN. rewrite (Rabs_pos_eq kT) in KN by lra. pose proof kT'_bounds as KB1.
  assert (LB : Rabs l <= 3 * A0). { replace l with (ln D0 + (l - ln D0)) by ring. eapply Rle_trans; [apply Rabs_triang|]. lra. }
  assert (KA : 0 < kT * A0) by (apply Rmult_lt_0_compat; lra).
  assert (P1 : Rabs (kT' * l - kT * ln D0) <= 66 * u * (kT * A0)).
  { replace (kT' * l - kT * ln D0) with ((kT' - kT) * l + kT * (l - ln D0)) by ring. eapply Rle_trans; [apply Rabs_triang|]. rewrite !Rabs_mult, (Rabs_pos_eq kT) by lra.
    assert (Rabs (kT' - kT) * Rabs l <= 2 * u * kT * (3 * A0)) by (apply Rmult_le_compat; try apply Rabs_pos; lra).
    assert (kT * Rabs (l - ln D0) <= kT * (60 * u * A0)) by (apply Rmult_le_compat_l; lra). lra. }
  assert (P2 : Rabs (kT' * l) <= 6 * (kT * A0)).
  { rewrite Rabs_mult, (Rabs_pos_eq kT') by lra. apply Rle_trans with (2 * kT * (3 * A0)); [apply Rmult_le_compat; try lra; apply Rabs_pos|lra]. }
  assert (KAB : b2 (-176) <= kT * A0 <= b2 25 * b2 41).
  { split; [rewrite <- (Rmult_1_r (b2 _)); apply Rmult_le_compat; try lra; left; apply b2_pos|apply Rmult_le_compat; lra]. }
  rewrite mul_fin by (apply Rle_trans with (1 := P2); apply Rle_trans with (b2 3 * (b2 25 * b2 41)); [change (b2 3) with 8; lra|bp]).
  set (p := rnd (kT' * l)).
  assert (T75 : b2 (-1075) <= u * (kT * A0)). { apply Rle_trans with (u * b2 (-176)); [unfold u; bp|apply Rmult_le_compat_l; lra]. }
  assert (P3 : Rabs (p - kT * ln D0) <= 73 * u * (kT * A0)).
  { pose proof (rnd_err (kT' * l)) as Q. fold p in Q. assert (u * Rabs (kT' * l) <= u * (6 * (kT * A0))) by (apply Rmult_le_compat_l; lra).
    replace (p - kT * ln D0) with ((p - kT' * l) + (kT' * l - kT * ln D0)) by ring. eapply Rle_trans; [apply Rabs_triang|]. lra. }
  set (g := 1 / 2 * hw + kT * ln D0). set (B := hw + kT * A0). assert (BP : 0 < B) by (unfold B; lra).
  assert (UH : 0 < u * hw) by (now apply Rmult_lt_0_compat). assert (UK : 0 < u * (kT * A0)) by (now apply Rmult_lt_0_compat).
  assert (S1 : Rabs (h + p - g) <= 73 * u * B).
  { unfold g, B. replace (h + p - (1 / 2 * hw + kT * ln D0)) with ((h - 1 / 2 * hw) + (p - kT * ln D0)) by ring. eapply Rle_trans; [apply Rabs_triang|]. lra. }
  assert (GB : Rabs g <= 2 * B).
  { unfold g, B. eapply Rle_trans; [apply Rabs_triang|]. rewrite Rabs_mult, (Rabs_pos_eq (1 / 2)), (Rabs_pos_eq hw), Rabs_mult, (Rabs_pos_eq kT) by lra.
    assert (kT * Rabs (ln D0) <= kT * (2 * A0)) by (apply Rmult_le_compat_l; lra). lra. }
  assert (US2 : 73 * u <= / 1000) by lra. assert (SB : 73 * u * B <= / 1000 * B) by (apply Rmult_le_compat_r; lra).
  assert (S2 : Rabs (h + p) <= 3 * B). { replace (h + p) with (g + (h + p - g)) by ring. eapply Rle_trans; [apply Rabs_triang|]. lra. }
  assert (BB : B <= b2 67). { unfold B. rewrite <- bpow_plus in KAB. change (25 + 41)%Z with 66%Z in KAB. assert (b2 (-10) <= b2 66) by bp. rewrite (b2_split 1 66 67), b2_1 by lia. lra. }
  rewrite add_fin by (apply Rle_trans with (1 := S2); apply Rle_trans with (b2 2 * b2 67); [change (b2 2) with 4; lra|bp]).
  set (t := rnd (h + p)).
  assert (T75' : b2 (-1075) <= u * B) by (unfold B; lra).
  assert (S3 : Rabs (t - g) <= 77 * u * B).
  { pose proof (rnd_err (h + p)) as Q. fold t in Q. assert (u * Rabs (h + p) <= u * (3 * B)) by (apply Rmult_le_compat_l; lra).
    replace (t - g) with ((t - (h + p)) + (h + p - g)) by ring. eapply Rle_trans; [apply Rabs_triang|]. lra. }
  assert (TB : Rabs t <= 3 * B). { replace t with (g + (t - g)) by ring. eapply Rle_trans; [apply Rabs_triang|]. assert (77 * u * B <= 1 * B) by (apply Rmult_le_compat_r; lra). lra. }
  pose proof mn_near as MN. pose proof mn_bounds as MB. pose proof M0_pos as MP. pose proof M0_bounds as MB0. unfold near in MN. rewrite (Rabs_pos_eq M0) in MN by lra.
  assert (MBP : 0 < M0 * B) by (now apply Rmult_lt_0_compat).
  assert (R1 : Rabs (mn * t - M0 * g) <= 95 * u * (M0 * B)).
  { replace (mn * t - M0 * g) with ((mn - M0) * t + M0 * (t - g)) by ring. eapply Rle_trans; [apply Rabs_triang|]. rewrite !Rabs_mult, (Rabs_pos_eq M0) by lra.
    assert (Rabs (mn - M0) * Rabs t <= 6 * u * M0 * (3 * B)) by (apply Rmult_le_compat; try apply Rabs_pos; lra).
    assert (M0 * Rabs (t - g) <= M0 * (77 * u * B)) by (apply Rmult_le_compat_l; lra). lra. }
  assert (R2 : Rabs (mn * t) <= 6 * (M0 * B)).
  { rewrite Rabs_mult, (Rabs_pos_eq mn) by lra. apply Rle_trans with (2 * M0 * (3 * B)); [apply Rmult_le_compat; try lra; apply Rabs_pos|lra]. }
  rewrite mul_fin.
  - eexists. split; [reflexivity|]. pose proof (rnd_err (mn * t)) as Q. assert (u * Rabs (mn * t) <= u * (6 * (M0 * B))) by (apply Rmult_le_compat_l; lra).
    assert (1 <= M0) by (rewrite <- b2_0; apply Rle_trans with (b2 68); [bp|lra]).
    assert (u * B <= u * (M0 * B)). { apply Rmult_le_compat_l; [lra|]. rewrite <- (Rmult_1_l B) at 1. apply Rmult_le_compat_r; lra. }
    replace (rnd (mn * t) - M0 * g) with ((rnd (mn * t) - mn * t) + (mn * t - M0 * g)) by ring. eapply Rle_trans; [apply Rabs_triang|].
    assert (0 < u * (M0 * B)) by (apply Rmult_lt_0_compat; lra). lra.
  - apply Rle_trans with (1 := R2). apply Rle_trans with (b2 3 * (b2 79 * b2 67)); [|bp]. change (b2 3) with 8. assert (M0 * B <= b2 79 * b2 67) by (apply Rmult_le_compat; lra). lra.
Qed.

(** Heat capacity. *)
Lemma Cv_exact : ho_Cv P T w = NK * exp x * (x / expm1 x) ^ 2.
Proof.
  unfold ho_Cv. rewrite w_guard, T_guard. cbn [orb]. fold hw kT. fold x. fold NK. pose proof (ratio_le_1 x x_pos) as RX.
  unfold Req_b. destruct (Req_EM_T _ 0) as [E|_]; [|reflexivity]. exfalso. apply (pow_nonzero (x / expm1 x) 2); [lra|exact E].
Qed.
Lemma Cv_pos : 0 < ho_Cv P T w.
Proof.
  rewrite Cv_exact. pose proof (ratio_le_1 x x_pos). pose proof NK_pos. pose proof (exp_pos x). apply Rmult_lt_0_compat; [apply Rmult_lt_0_compat; lra|apply pow_lt; lra].
Qed.
Lemma Cv_moderate : y <= 300 -> exists v, ho_Cv_f m P T w = Fin v /\ near v (ho_Cv P T w) (96 * (1 + x)).
Proof.
  intros Y. rewrite Cv_exact. unfold ho_Cv_f. rewrite w_guard, T_guard. cbn [orb]. rewrite hw_fin, kT_fin, y_fin. cbn [bindf].
  destruct (em_moderate Y) as (e & E & Q). destruct (ex_moderate Y) as (g & G & QG). rewrite E, G. pose proof (x_moderate Y) as X1. pose proof x_pos as X0. pose proof (ke_few Y) as KE.
  pose proof (expm1_pos x X0) as EP. pose proof (expm1_x_upper Y) as EU. pose proof (ratio_lower Y) as RL. pose proof (ratio_le_1 x X0) as RU. pose proof x_lower as XL.
  set (r := x / expm1 x) in *. pose proof NK_pos as NP. pose proof NK_bounds as NB.
  assert (EX : 1 <= exp x <= b2 485).
  { split; [pose proof (exp_ineq1_le x); lra|]. unfold expm1 in EU. rewrite (b2_split 1 484 485), b2_1 by lia. assert (b2 0 <= b2 484) by bp. rewrite b2_0 in *. lra. }
  assert (ONE : 1 <= b2 900) by (rewrite <- b2_0; bp).
  destruct (step_div y x e (expm1 x) 9 ke) as [F1 Q1]; [apply y_near|exact Q|lra|lra|lra|lra|lra|fold r; split; [apply Rle_trans with (b2 (-490)); [bp|lra]|lra]|].
  fold r in Q1. set (q := rnd (y / e)) in *. rewrite F1. cbn [bindf]. assert (FE : few (9 + ke + 5)) by (lra).
  pose proof (near_mul _ _ _ _ _ _ Q1 Q1 FE FE) as Q2. replace (q * q) with (q ^ 2) in Q2 by ring. replace (r * r) with (r ^ 2) in Q2 by ring.
  assert (FE2 : few (9 + ke + 5 + (9 + ke + 5) + 1)) by (lra).
  destruct (near_between _ _ _ Q1 FE) as [QL QU]; [lra|].
  assert (R2 : b2 (-980) <= r ^ 2 <= 1).
  { replace (r ^ 2) with (r * r) by ring. split; [apply Rle_trans with (b2 (-490) * b2 (-490)); [bp|]|replace 1 with (1 * 1) by ring]; apply Rmult_le_compat; try lra; left; apply b2_pos. }
  destruct (near_between _ _ _ Q2 FE2) as [SL SU]; [pose proof (b2_pos (-980)); lra|].
  destruct (good_near _ _ _ q (square_good m M) (double_rnd _)) as (n & GN & _ & QN); [| exact I| | |].
  { rewrite Rabs_pos_eq by lra. apply Rle_lt_trans with (b2 1); [rewrite b2_1; lra|apply bpow_lt; lia]. }
  { apply Rle_lt_trans with (b2 1); [rewrite b2_1; lra|apply bpow_lt; lia]. }
  { rewrite Rabs_pos_eq by (apply Rle_trans with (r ^ 2 / 2); [pose proof (b2_pos (-980)); lra|lra]). apply Rle_trans with (b2 (-981)); [bp|]. rewrite (b2_split 1 (-981) (-980)), b2_1 in R2 by lia. lra. }
  cbn [f_square]. rewrite GN. pose proof (near_trans _ _ _ _ _ QN Q2 ltac:(lra) FE2) as Q3.
  assert (FE3 : few (3 + (9 + ke + 5 + (9 + ke + 5) + 1) + 1)) by (lra).
  destruct (near_between _ _ _ Q3 FE3) as [NL NU]; [pose proof (b2_pos (-980)); lra|].
  unfold Req_b. destruct (Req_EM_T n 0) as [Z|_]; [pose proof (b2_pos (-980)); lra|]. cbn [unraisable]. rewrite nk_fin.
  destruct (step_mul nk NK g (exp x) 2 (18 * x + 4)) as [F2 Q4]; [apply nk_near|exact QG|lra|lra|lra|lra|lra| |].
  { split; [apply Rle_trans with (b2 2 * b2 0); [bp|rewrite b2_0]|apply Rle_trans with (b2 4 * b2 485); [|bp]]; apply Rmult_le_compat; try lra; left; apply b2_pos. }
  rewrite F2. pose proof (b2_pos (-980)).
  destruct (step_mul (rnd (nk * g)) (NK * exp x) n (r ^ 2) (2 + (18 * x + 4) + 4) (3 + (9 + ke + 5 + (9 + ke + 5) + 1) + 1)) as [F3 Q5]; [exact Q4|exact Q3|lra|lra|lra|apply Rmult_lt_0_compat; lra|lra| |].
  { assert (NE : b2 2 * b2 0 <= NK * exp x <= b2 4 * b2 485) by (rewrite b2_0; split; apply Rmult_le_compat; try lra; left; apply b2_pos).
    split; [apply Rle_trans with (b2 2 * b2 0 * b2 (-980)); [bp|]|apply Rle_trans with (b2 4 * b2 485 * b2 0); [rewrite b2_0|bp]].
    - apply Rmult_le_compat; try lra. rewrite <- bpow_plus. left. apply b2_pos.
    - apply Rmult_le_compat; try lra. apply Rle_trans with (b2 2 * b2 0); [rewrite <- bpow_plus; left; apply b2_pos|lra]. }
  rewrite F3. eexists. split; [reflexivity|]. eapply near_weaken; [exact Q5|]. unfold ke. lra.
Qed.

(** Doubles that are not zero are at least 2^-1074. *)
Lemma double_min s : double s -> s <> 0 -> b2 (-1074) <= Rabs s.
Proof.
  intros D Z. eapply Rle_trans; [|apply (ulp_le_abs radix2 fexp s Z D)]. rewrite <- (@ulp_FLT_0 radix2 (-1074) 53 eq_refl). apply ulp_ge_ulp_0; [exact (@FLT_exp_valid (-1074) 53 eq_refl)|]. apply monotone_exp_not_FTZ; [exact (@FLT_exp_valid (-1074) 53 eq_refl)|exact (FLT_exp_monotone (-1074) 53)].
Qed.
Lemma Cv_exact_large : 300 < y -> ho_Cv P T w <= b2 (-141) * NK.
Proof.
  intros Y. rewrite Cv_exact. pose proof (x_large Y) as XL. pose proof (half_expm1 x ltac:(lra)) as HE. pose proof (exp_pos x) as E0. pose proof NK_pos as NP.
  assert (Q : exp x * (x / expm1 x) ^ 2 <= b2 (-141)).
  { assert (RB : 0 <= x / expm1 x <= 2 * x / exp x).
    { split; [apply Rmult_le_pos; [lra|left; apply Rinv_0_lt_compat; lra]|]. replace (2 * x / exp x) with (x * / (exp x / 2)) by (field; lra).
      apply Rmult_le_compat_l; [lra|]. apply Rinv_le; lra. }
    apply Rle_trans with (exp x * (2 * x / exp x) ^ 2); [apply Rmult_le_compat_l; [lra|]; apply pow_incr; lra|].
    replace (exp x * (2 * x / exp x) ^ 2) with (4 * x ^ 2 / exp x) by (field; lra).
    set (a := exp (x / 4)). pose proof (exp_pos (x / 4)) as A0'. fold a in A0'. pose proof (below_exp (x / 4)) as BE. fold a in BE.
    assert (E : exp x = a ^ 2 * a ^ 2) by (unfold a; rewrite <- exp_INR, <- exp_plus; f_equal; cbn; field).
    assert (A2 : b2 149 <= a ^ 2) by (unfold a; rewrite <- exp_INR; change 149%Z with (Z.of_nat 149); apply exp_big; rewrite !INR_IZR_INZ; cbn; lra).
    assert (XA : x ^ 2 <= 16 * a ^ 2) by (replace (16 * a ^ 2) with ((4 * a) ^ 2) by ring; apply pow_incr; lra).
    apply Rle_trans with (64 * / a ^ 2).
    - rewrite E. unfold Rdiv. assert (P2 : 0 < a ^ 2) by (apply pow_lt; lra). rewrite Rinv_mult, <- Rmult_assoc. apply Rmult_le_compat_r; [left; now apply Rinv_0_lt_compat|].
      apply Rmult_le_reg_r with (a ^ 2); [exact P2|]. rewrite Rmult_assoc, Rinv_l by lra. lra.
    - apply Rle_trans with (b2 6 * b2 (-149)); [|bp]. change (b2 6) with 64. apply Rmult_le_compat_l; [lra|]. change (-149)%Z with (- (149))%Z. rewrite <- b2_inv. apply Rinv_le; [apply b2_pos|exact A2]. }
  replace (NK * exp x * (x / expm1 x) ^ 2) with (exp x * (x / expm1 x) ^ 2 * NK) by ring. apply Rmult_le_compat_r; lra.
Qed.
Lemma square_zero : exists s, c_square m 0 = Fin s /\ s = 0.
Proof.
  assert (D : double 0) by (apply generic_format_0).
  destruct (good_fin _ _ _ 0 (square_good m M) D) as (s & F & DS & B); [rewrite Rabs_R0; apply b2_pos|exact I|rewrite pow_i by lia; apply b2_pos|].
  exists s. split; [exact F|]. rewrite pow_i, Rabs_R0 in B by lia. destruct (Req_dec s 0) as [Z|Z]; [exact Z|].
  pose proof (double_min s DS Z). unfold tiny in B. pose proof (b2_pos (-1074)). rewrite Rminus_0_r in B. lra.
Qed.
Lemma Cv_large : 300 < y -> exists v, ho_Cv_f m P T w = Fin v /\ Rabs (v - ho_Cv P T w) <= b2 (-140) * NK.
Proof.
  intros Y. pose proof (Cv_exact_large Y) as CE. pose proof Cv_pos as CP. unfold ho_Cv_f. rewrite w_guard, T_guard. cbn [orb]. rewrite hw_fin, kT_fin, y_fin. cbn [bindf].
  set (C := ho_Cv P T w) in *. pose proof NK_pos as NP. pose proof NK_bounds as NB. pose proof nk_bounds as NKB.
  assert (HALF : b2 (-140) = 2 * b2 (-141)) by (rewrite (b2_split 1 (-141) (-140)), b2_1 by lia; ring). pose proof (b2_pos (-141)) as B141.
  assert (BN : 0 < b2 (-141) * NK) by (now apply Rmult_lt_0_compat).
  assert (V : forall v, Rabs v <= b2 (-141) * NK -> Rabs (v - C) <= b2 (-140) * NK).
  { intros v VB. eapply Rle_trans; [apply Rabs_triang|]. rewrite Rabs_Ropp, (Rabs_pos_eq C), HALF by lra. lra. }
  assert (V0 : Rabs (0 - C) <= b2 (-140) * NK) by (apply V; rewrite Rabs_R0; lra).
  destruct (em_large Y) as [E|(e & E & EB & EU)]; rewrite E.
  - cbn [fdiv bindf f_square]. destruct square_zero as (s & F & ->). rewrite F. unfold Req_b. destruct (Req_EM_T 0 0) as [_|N0]; [|easy].
    exists 0. split; [reflexivity|exact V0].
  - pose proof (exp_pos y) as EP. assert (YU : y < 1026).
    { destruct (Rlt_or_le y 1026) as [L|G]; [exact L|]. exfalso. assert (b2 (Z.of_nat 1026) <= exp y) by (apply exp_big; rewrite INR_IZR_INZ; exact G).
      change (Z.of_nat 1026) with 1026%Z in H. rewrite (b2_split 2 1024 1026) in H by lia. change (b2 2) with 4 in H. lra. }
    pose proof y_pos as Y0. set (i := / exp y). assert (IP : 0 < i) by (apply Rinv_0_lt_compat; lra).
    assert (I3 : i <= b2 (-300)) by (apply inv_exp_y, Y).
    assert (QB : 0 < y / e <= b2 13 * i).
    { assert (0 < / e) by (apply Rinv_0_lt_compat; lra). split; [apply Rmult_lt_0_compat; lra|]. change (b2 13) with 8192.
      apply Rle_trans with (2048 * (4 * i)); [|lra]. apply Rmult_le_compat; try lra. unfold i. replace (4 * / exp y) with (/ (exp y / 4)) by (field; lra). apply Rinv_le; lra. }
    rewrite div_fin; [|lra|rewrite Rabs_pos_eq by lra; apply Rle_trans with (1 := proj2 QB); apply Rle_trans with (b2 13 * b2 (-300)); [apply Rmult_le_compat_l; [left; apply b2_pos|lra]|bp]].
    set (t := rnd (y / e)). assert (TB : Rabs t <= b2 14 * i + b2 (-1075)).
    { pose proof (rnd_abs (y / e)) as Q. fold t in Q. rewrite (Rabs_pos_eq (y / e)) in Q by lra. rewrite (b2_split 1 13 14), b2_1 by lia. lra. }
    assert (T1 : Rabs t <= b2 (-285)).
    { apply Rle_trans with (1 := TB). apply Rle_trans with (b2 14 * b2 (-300) + b2 (-286)); [apply Rplus_le_compat; [apply Rmult_le_compat_l; [left; apply b2_pos|lra]|bp]|].
      rewrite <- bpow_plus. change (14 + -300)%Z with (-286)%Z. rewrite (b2_split 1 (-286) (-285)), b2_1 by lia. lra. }
    assert (T2 : 0 <= t ^ 2 < b2 1023).
    { split; [apply pow2_ge_0|]. rewrite <- pow2_abs. apply Rle_lt_trans with (b2 (-285) ^ 2); [apply pow_incr; pose proof (Rabs_pos t); lra|].
      replace (b2 (-285) ^ 2) with (b2 (-285) * b2 (-285)) by ring. rewrite <- bpow_plus. apply bpow_lt. lia. }
    destruct (good_fin _ _ _ t (square_good m M) (double_rnd _)) as (s & GS & DS & BS); [apply Rle_lt_trans with (1 := T1); apply bpow_lt; lia|exact I|lra|].
    cbn [bindf f_square]. rewrite GS. unfold Req_b. destruct (Req_EM_T s 0) as [_|SZ]; [exists 0; split; [reflexivity|exact V0]|].
    pose proof (double_min s DS SZ) as SM. rewrite (Rabs_pos_eq (t ^ 2)) in BS by lra. pose proof u_small as US. pose proof u_pos as U0.
    assert (UT : 0 <= u * t ^ 2 <= / 1000 * t ^ 2) by (split; [apply Rmult_le_pos; lra|apply Rmult_le_compat_r; lra]).
    assert (SA : Rabs s <= t ^ 2 + (2 * u * t ^ 2 + tiny)). { replace s with (t ^ 2 + (s - t ^ 2)) by ring. eapply Rle_trans; [apply Rabs_triang|]. rewrite (Rabs_pos_eq (t ^ 2)) by lra. lra. }
    unfold tiny in *. pose proof (b2_pos (-1074)) as B74.
    assert (T3 : b2 (-1078) <= t ^ 2). { rewrite (b2_split 4 (-1078) (-1074)) in SA, SM by lia. change (b2 4) with 16 in *. pose proof (b2_pos (-1078)). lra. }
    assert (S8 : Rabs s <= 8 * t ^ 2). { rewrite (b2_split 2 (-1076) (-1074)) in SA, SM by lia. change (b2 2) with 4 in *. pose proof (b2_pos (-1076)). lra. }
    assert (T4 : b2 (-539) <= Rabs t).
    { destruct (Rle_or_lt (b2 (-539)) (Rabs t)) as [L|G]; [exact L|]. exfalso. assert (Rabs t * Rabs t < b2 (-539) * b2 (-539)) by (apply Rmult_le_0_lt_compat; try apply Rabs_pos; exact G).
      rewrite <- bpow_plus in H. change (-539 + -539)%Z with (-1078)%Z in H. rewrite <- Rabs_mult in H. replace (t * t) with (t ^ 2) in H by ring. rewrite Rabs_pos_eq in H by lra. lra. }
    assert (I4 : b2 (-554) <= i).
    { apply Rmult_le_reg_l with (b2 14); [apply b2_pos|]. rewrite <- bpow_plus. change (14 + -554)%Z with (-540)%Z. assert (b2 (-1075) <= b2 (-540)) by bp.
      rewrite (b2_split 1 (-540) (-539)), b2_1 in T4 by lia. lra. }
    assert (EXU : exp y <= b2 554). { rewrite <- (Rinv_inv (exp y)). fold i. change 554%Z with (- (-554))%Z. rewrite <- b2_inv. apply Rinv_le; [apply b2_pos|exact I4]. }
    destruct (good_fin _ _ _ y (exp_good m M) y_double y_range I) as (g & GE & _ & BG); [apply Rle_lt_trans with (1 := EXU); apply bpow_lt; lia|].
    cbn [f_exp unraisable]. rewrite GE, nk_fin. rewrite (Rabs_pos_eq (exp y)) in BG by lra. unfold tiny in BG.
    assert (E1 : 1 <= exp y) by (pose proof (exp_ineq1_le y); lra). assert (TY1 : b2 (-1074) <= / 4) by (change (/ 4) with (b2 (-2)); bp).
    assert (GB : Rabs g <= 2 * exp y).
    { replace g with (exp y + (g - exp y)) by ring. eapply Rle_trans; [apply Rabs_triang|]. rewrite (Rabs_pos_eq (exp y)) by lra.
      assert (2 * u * exp y <= / 4 * exp y) by (apply Rmult_le_compat_r; lra). lra. }
    assert (P1 : Rabs (nk * g) <= 4 * (NK * exp y)).
    { rewrite Rabs_mult, (Rabs_pos_eq nk) by lra. apply Rle_trans with (2 * NK * (2 * exp y)); [apply Rmult_le_compat; try lra; apply Rabs_pos|lra]. }
    assert (NE : 1 <= NK * exp y <= b2 4 * b2 554).
    { split; [|apply Rmult_le_compat; lra]. replace 1 with (1 * 1) by ring. apply Rmult_le_compat; try lra. rewrite <- b2_0. apply Rle_trans with (b2 2); [bp|lra]. }
    rewrite mul_fin by (apply Rle_trans with (1 := P1); change 4 with (b2 2) at 1; apply Rle_trans with (b2 2 * (b2 4 * b2 554)); [apply Rmult_le_compat_l; [left; apply b2_pos|lra]|bp]).
    set (p := rnd (nk * g)). assert (PB : Rabs p <= 16 * (NK * exp y)).
    { pose proof (rnd_abs (nk * g)) as Q. fold p in Q. assert (b2 (-1075) <= b2 (-1074)) by bp. lra. }
    assert (T5 : Rabs t <= b2 15 * i).
    { assert (b2 (-1075) <= b2 14 * i) by (apply Rle_trans with (b2 14 * b2 (-554)); [bp|apply Rmult_le_compat_l; [left; apply b2_pos|lra]]). rewrite (b2_split 1 14 15), b2_1 by lia. lra. }
    assert (S9 : Rabs s <= b2 33 * (i * i)).
    { apply Rle_trans with (1 := S8). rewrite <- pow2_abs. assert (Rabs t ^ 2 <= (b2 15 * i) ^ 2) by (apply pow_incr; split; [apply Rabs_pos|lra]).
      change (b2 33) with 8589934592. change (b2 15) with 32768 in *. replace ((32768 * i) ^ 2) with (1073741824 * (i * i)) in H by ring. lra. }
    assert (PS : Rabs (p * s) <= b2 (-263) * NK).
    { rewrite Rabs_mult. apply Rle_trans with (16 * (NK * exp y) * (b2 33 * (i * i))); [apply Rmult_le_compat; try apply Rabs_pos; lra|].
      replace (16 * (NK * exp y) * (b2 33 * (i * i))) with (16 * b2 33 * NK * i * (exp y * i)) by ring. unfold i at 2. rewrite Rinv_r, Rmult_1_r by lra.
      change 16 with (b2 4). rewrite <- bpow_plus. change (4 + 33)%Z with 37%Z. rewrite (b2_split 37 (-300) (-263)) by lia.
      replace (b2 37 * b2 (-300) * NK) with (b2 37 * NK * b2 (-300)) by ring. apply Rmult_le_compat_l; [|exact I3]. apply Rmult_le_pos; [left; apply b2_pos|lra]. }
    rewrite mul_fin by (apply Rle_trans with (1 := PS); apply Rle_trans with (b2 (-263) * b2 4); [apply Rmult_le_compat_l; [left; apply b2_pos|lra]|bp]).
    eexists. split; [reflexivity|]. apply V. eapply Rle_trans; [apply rnd_abs|]. assert (b2 (-1075) <= b2 (-263) * NK) by (apply Rle_trans with (b2 (-263) * b2 2); [bp|apply Rmult_le_compat_l; [left; apply b2_pos|lra]]).
    apply Rle_trans with (b2 2 * b2 (-263) * NK); [change (b2 2) with 4; assert (0 < b2 (-263) * NK) by (apply Rmult_lt_0_compat; [apply b2_pos|exact NP]); lra|]. apply Rmult_le_compat_r; [lra|bp].
Qed.
End Oscillator.
