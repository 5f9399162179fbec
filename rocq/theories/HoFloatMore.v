(** One mode at any usable temperature and frequency, sums of rounded terms, a
    correctly rounded C library, and what happens outside the regular range
    (behind C83). *)
From Coq Require Import Reals List ZArith Lia Lra Psatz Bool Arith.
From Flocq Require Import Core.
From Verif Require Import ParModel ParProofs StatMechModel StatMechSpec StatMechProofs GridFloatModel GridFloatProofs HoFloatModel HoFloatSpec HoFloatProofs.
Import ListNotations.
Open Scope R_scope.

(** * One oscillator, both regimes together *)
Section Mode.
Variable m : libm.
Hypothesis M : accurate m.
Variable P : phys.
Hypothesis PH : codata_sized P.

Lemma zpe_mode T w : b2 (-100) <= w <= b2 100 -> exists v, ho_zpe_f m P T w = Fin v /\ near v (ho_zpe P T w) 18.
Proof. intros B. exact (zpe_error m M P PH w w (conj B B)). Qed.

Lemma eth_mode T w : regular P T w ->
  exists v, ho_eth_f m P T w = Fin v /\
    Rabs (v - ho_eth P T w) <= 64 * u * (1 + xi P T w) * ho_eth P T w + b2 (-280) * quantum P w.
Proof.
  intros [BX LO]. pose proof (hw_pos P PH T w BX) as HP. pose proof (M0_pos P PH) as MP. pose proof (x_pos P PH T w BX) as X0. pose proof u_pos.
  assert (EQ : quantum P w = M0 P * (hpl P * w)) by reflexivity. pose proof (b2_pos (-280)).
  assert (Q0 : 0 <= b2 (-280) * quantum P w) by (rewrite EQ; apply Rmult_le_pos; [lra|apply Rmult_le_pos; lra]).
  assert (E0 : 0 <= ho_eth P T w).
  { rewrite (eth_exact P T w BX). pose proof (expm1_pos _ X0). apply Rmult_le_pos; [lra|]. apply Rmult_le_pos; [lra|]. left. apply Rinv_0_lt_compat. lra. }
  destruct (Rle_or_lt (rnd (rnd (hpl P * w) / rnd (KB P * T))) 300) as [Y|Y].
  - destruct (eth_moderate m M P PH T w BX LO Y) as (v & F & B). exists v. split; [exact F|]. unfold near in B. rewrite (Rabs_pos_eq (ho_eth P T w)) in B by exact E0.
    fold (xi P T w) in B. lra.
  - destruct (eth_large m M P PH T w BX Y) as (v & F & B). exists v. split; [exact F|]. rewrite <- EQ in B.
    assert (0 <= 64 * u * (1 + xi P T w) * ho_eth P T w) by (apply Rmult_le_pos; [|exact E0]; unfold xi; apply Rmult_le_pos; lra). lra.
Qed.
Lemma S_mode T w : regular P T w -> exists v, ho_S_f m P T w = Fin v /\ Rabs (v - ho_S P T w) <= b2 (-45) * (gas P * (1 + / xi P T w)).
Proof.
  intros [BX LO]. destruct (S_error m M P PH T w BX LO) as (v & F & B). exists v. split; [exact F|].
  replace (b2 (-45)) with (256 * u); [exact B|]. unfold u. change 256 with (b2 8). rewrite <- bpow_plus. reflexivity.
Qed.
Lemma F_mode T w : regular P T w -> exists v, ho_F_f m P T w = Fin v /\ Rabs (v - ho_F P T w) <= b2 (-46) * (quantum P w + thermal P T * (1 + / xi P T w)).
Proof.
  intros [BX LO]. destruct (F_error m M P PH T w BX LO) as (v & F & B). exists v. split; [exact F|].
  replace (b2 (-46)) with (128 * u); [|unfold u; change 128 with (b2 7); rewrite <- bpow_plus; reflexivity].
  replace (quantum P w + thermal P T * (1 + / xi P T w)) with (M0 P * (hpl P * w + KB P * T * A0 P T w)); [exact B|].
  unfold quantum, thermal, M0, A0, xi. ring.
Qed.
Lemma Cv_mode T w : regular P T w ->
  exists v, ho_Cv_f m P T w = Fin v /\ Rabs (v - ho_Cv P T w) <= 96 * u * (1 + xi P T w) * ho_Cv P T w + b2 (-140) * gas P.
Proof.
  intros [BX LO]. pose proof (x_pos P PH T w BX) as X0. pose proof u_pos. pose proof (NK_pos P PH) as NP. change (NK P) with (gas P) in NP.
  pose proof (Cv_pos P PH T w BX) as CP. pose proof (b2_pos (-140)).
  assert (Q0 : 0 <= b2 (-140) * gas P) by (apply Rmult_le_pos; lra).
  destruct (Rle_or_lt (rnd (rnd (hpl P * w) / rnd (KB P * T))) 300) as [Y|Y].
  - destruct (Cv_moderate m M P PH T w BX LO Y) as (v & F & B). exists v. split; [exact F|]. unfold near in B. rewrite (Rabs_pos_eq (ho_Cv P T w)) in B by lra.
    fold (xi P T w) in B. lra.
  - destruct (Cv_large m M P PH T w BX Y) as (v & F & B). exists v. split; [exact F|]. change (NK P) with (gas P) in B.
    assert (0 <= 96 * u * (1 + xi P T w) * ho_Cv P T w) by (apply Rmult_le_pos; [|lra]; unfold xi; apply Rmult_le_pos; lra). lra.
Qed.

(** ** Uniform bounds in terms of the sizes *)
Definition mode_ok (f : fp) (e s : R) : Prop :=
  exists v, f = Fin v /\ Rabs (v - e) <= b2 (-41) * s /\ Rabs e <= 8 * s /\ 0 <= s <= b2 300.
Lemma mode_zero : mode_ok (Fin 0) 0 0.
Proof.
  exists 0. split; [reflexivity|]. pose proof (b2_pos 300). rewrite Rminus_0_r, Rabs_R0. repeat split; lra.
Qed.
Lemma guard_true w : w <= 0 -> Rle_b w 0 = true. Proof. apply Rle_b_true. Qed.
Lemma guard_false w : b2 (-100) <= w -> Rle_b w 0 = false.
Proof. intros H. apply Rle_b_false. pose proof (b2_pos (-100)). lra. Qed.
Lemma zero_T : Req_b 0 0 = true.
Proof. unfold Req_b. destruct (Req_EM_T 0 0); [reflexivity|easy]. Qed.
Lemma quantum_bounds w : b2 (-100) <= w <= b2 100 -> 0 < quantum P w <= b2 80.
Proof.
  intros B. assert (BX : box w w) by (split; exact B). change (quantum P w) with (M0 P * (hpl P * w)).
  pose proof (hw_bounds P PH w w BX) as HB. pose proof (hw_pos P PH w w BX). pose proof (M0_bounds P PH) as MB. pose proof (M0_pos P PH).
  split; [apply Rmult_lt_0_compat; lra|]. apply Rle_trans with (b2 79 * b2 (-10)); [apply Rmult_le_compat; lra|bp].
Qed.
Lemma thermal_bounds T w : box T w -> 0 < thermal P T <= b2 110.
Proof.
  intros BX. change (thermal P T) with (M0 P * (KB P * T)).
  pose proof (kT_bounds P PH T w BX) as HB. pose proof (kT_pos P PH T w BX). pose proof (M0_bounds P PH) as MB. pose proof (M0_pos P PH).
  split; [apply Rmult_lt_0_compat; lra|]. apply Rle_trans with (b2 79 * b2 25); [apply Rmult_le_compat; lra|bp].
Qed.
Lemma gas_bounds : 0 < gas P <= b2 4.
Proof. pose proof (NK_bounds P PH) as B. pose proof (NK_pos P PH). split; [assumption|exact (proj2 B)]. Qed.
Lemma ratio_xx x : 0 < x -> (1 + x) * (1 + x) * (x / expm1 x) <= 36.
Proof.
  intros X. pose proof (ratio_le_1 x X) as R1. pose proof (ratio_x x X) as R2.
  assert (R3 : x * x * (x / expm1 x) <= 27).
  { pose proof (expm1_pos x X). pose proof (exp_ineq1_le (x / 3)) as E. assert (E3 : exp x = exp (x / 3) ^ 3) by (rewrite <- exp_INR; f_equal; cbn; field).
    assert (E4 : (1 + x / 3) ^ 3 <= exp x) by (rewrite E3; apply pow_incr; lra).
    apply Rmult_le_reg_r with (expm1 x); [lra|]. replace (x * x * (x / expm1 x) * expm1 x) with (x ^ 3) by (field; lra).
    assert (0 <= x ^ 2) by apply pow2_ge_0. unfold expm1. replace ((1 + x / 3) ^ 3) with (1 + x + x ^ 2 / 3 + x ^ 3 / 27) in E4 by field. lra. }
  replace ((1 + x) * (1 + x) * (x / expm1 x)) with (x / expm1 x + 2 * (x * (x / expm1 x)) + x * x * (x / expm1 x)) by ring. lra.
Qed.
Lemma zpe_ok T w : usable P T w -> mode_ok (ho_zpe_f m P T w) (ho_zpe P T w) (size_zpe P T w).
Proof.
  intros U. assert (W : w <= 0 \/ b2 (-100) <= w <= b2 100) by (destruct U as [A|[(_ & A)|((_ & A) & _)]]; auto).
  unfold size_zpe, if_real. destruct W as [W|W].
  - unfold ho_zpe_f, ho_zpe. rewrite (guard_true w W). apply mode_zero.
  - destruct (zpe_mode T w W) as (v & F & B). exists v. split; [exact F|]. pose proof (quantum_bounds w W) as QB.
    assert (E : ho_zpe P T w = quantum P w / 2) by (unfold ho_zpe; rewrite (guard_false w (proj1 W)); unfold quantum; lra).
    rewrite E in *. unfold near in B. rewrite (guard_false w (proj1 W)), (Rabs_pos_eq (quantum P w / 2)) in * by lra.
    assert (18 * u <= b2 (-41)) by (unfold u; apply Rle_trans with (b2 5 * b2 (-53)); [change (b2 5) with 32; pose proof (b2_pos (-53)); lra|bp]).
    assert (18 * u * quantum P w <= b2 (-41) * quantum P w) by (apply Rmult_le_compat_r; lra). pose proof u_pos.
    assert (0 < u * quantum P w) by (apply Rmult_lt_0_compat; lra). assert (b2 80 <= b2 300) by bp.
    repeat split; lra.
Qed.
Lemma eth_ok T w : usable P T w -> mode_ok (ho_eth_f m P T w) (ho_eth P T w) (size_eth P T w).
Proof.
  intros U. unfold size_eth, if_real. destruct U as [W|[(-> & W)|RG]].
  - unfold ho_eth_f, ho_eth. rewrite (guard_true w W). apply mode_zero.
  - unfold ho_eth_f, ho_eth. rewrite zero_T, orb_true_r, (guard_false w (proj1 W)). unfold thermal. rewrite !Rmult_0_r. apply mode_zero.
  - destruct (eth_mode T w RG) as (v & F & B). destruct RG as (BX & LO). rewrite (guard_false w (proj1 (proj2 BX))). exists v. split; [exact F|].
    pose proof (thermal_bounds T w BX) as TB. pose proof (x_pos P PH T w BX) as X0. fold (xi P T w) in X0. set (x := xi P T w) in *.
    pose proof (ratio_le_1 x X0) as R1. pose proof (ratio_x x X0) as R2. pose proof (T_pos T w BX) as TP.
    assert (KP : 0 < KB P) by (destruct PH as (_ & KQ & _); pose proof (b2_pos (-76)); lra).
    assert (E : ho_eth P T w = thermal P T * (x / expm1 x)).
    { rewrite (eth_exact P T w BX). fold (xi P T w). fold x. unfold thermal, M0. unfold x at 2. unfold xi. pose proof (expm1_pos x X0). field. repeat split; apply Rgt_not_eq; lra. }
    assert (Q : quantum P w = thermal P T * x) by (unfold quantum, thermal, x, xi; field; repeat split; apply Rgt_not_eq; lra).
    assert (XU : x <= b2 166) by (exact (x_upper P PH T w BX)).
    assert (B1 : 64 * u * (1 + x) * ho_eth P T w <= 320 * u * thermal P T).
    { rewrite E. pose proof u_pos. replace (64 * u * (1 + x) * (thermal P T * (x / expm1 x))) with (64 * u * thermal P T * (x / expm1 x + x * (x / expm1 x))) by ring.
      replace (320 * u * thermal P T) with (64 * u * thermal P T * 5) by ring. apply Rmult_le_compat_l; [apply Rmult_le_pos; lra|lra]. }
    assert (B2 : b2 (-280) * quantum P w <= b2 (-114) * thermal P T).
    { rewrite Q. replace (b2 (-280) * (thermal P T * x)) with (b2 (-280) * x * thermal P T) by ring. apply Rmult_le_compat_r; [lra|].
      rewrite (b2_split (-280) 166 (-114)) by lia. apply Rmult_le_compat_l; [left; apply b2_pos|exact XU]. }
    assert (B3 : 320 * u + b2 (-114) <= b2 (-41)).
    { unfold u. apply Rle_trans with (b2 9 * b2 (-53)); [|bp]. change (b2 9) with 512. pose proof (b2_pos (-53)). assert (b2 (-114) <= b2 (-53)) by bp. lra. }
    assert (B4 : (320 * u + b2 (-114)) * thermal P T <= b2 (-41) * thermal P T) by (apply Rmult_le_compat_r; lra).
    assert (b2 110 <= b2 300) by bp.
    assert (0 <= thermal P T * (x / expm1 x) <= thermal P T). { split; [apply Rmult_le_pos; lra|]. rewrite <- (Rmult_1_r (thermal P T)) at 2. apply Rmult_le_compat_l; lra. }
    rewrite (Rabs_pos_eq (ho_eth P T w)) by (rewrite E; lra). repeat split; lra.
Qed.
Lemma A_bounds T w : regular P T w -> 1 <= 1 + / xi P T w <= b2 41.
Proof. intros (BX & LO). split; [exact (A0_ge P PH T w BX)|exact (A0_le P T w LO)]. Qed.
Lemma S_ok T w : usable P T w -> mode_ok (ho_S_f m P T w) (ho_S P T w) (size_S P T w).
Proof.
  intros U. unfold size_S, if_real. destruct U as [W|[(-> & W)|RG]].
  - unfold ho_S_f, ho_S. rewrite (guard_true w W). apply mode_zero.
  - unfold ho_S_f, ho_S. rewrite zero_T, orb_true_r, (guard_false w (proj1 W)). pose proof gas_bounds as GB. unfold xi. rewrite !Rmult_0_r. unfold Rdiv. rewrite Rinv_0, Rmult_0_r, Rinv_0, Rplus_0_r, Rmult_1_r.
    exists 0. split; [reflexivity|]. rewrite Rminus_0_r, Rabs_R0. pose proof (b2_pos (-41)). assert (0 < b2 (-41) * gas P) by (apply Rmult_lt_0_compat; lra). assert (b2 4 <= b2 300) by bp. repeat split; lra.
  - destruct (S_mode T w RG) as (v & F & B). pose proof (A_bounds T w RG) as AB. destruct RG as (BX & LO). rewrite (guard_false w (proj1 (proj2 BX))). exists v. split; [exact F|].
    pose proof gas_bounds as GB. pose proof (x_pos P PH T w BX) as X0. pose proof (ratio_le_1 _ X0) as R1. set (s := gas P * (1 + / xi P T w)) in *.
    assert (SP : 0 < s) by (apply Rmult_lt_0_compat; lra). assert (SU : s <= b2 300) by (apply Rle_trans with (b2 4 * b2 41); [apply Rmult_le_compat; lra|bp]).
    assert (b2 (-45) * s <= b2 (-41) * s) by (apply Rmult_le_compat_r; [lra|bp]).
    assert (EB : Rabs (ho_S P T w) <= 8 * s).
    { rewrite (S_exact P PH T w BX). change (NK P) with (gas P). destruct (log_error m M P PH T w BX LO) as (_ & _ & _ & L). change (A0 P T w) with (1 + / xi P T w) in L.
      rewrite Rabs_mult, (Rabs_pos_eq (gas P)) by lra. replace (8 * s) with (gas P * (8 * (1 + / xi P T w))) by (unfold s; ring). apply Rmult_le_compat_l; [lra|].
      eapply Rle_trans; [apply Rabs_triang|]. rewrite Rabs_Ropp, (Rabs_pos_eq (_ / expm1 _)) by lra. lra. }
    repeat split; lra.
Qed.
Lemma F_zero w : b2 (-100) <= w <= b2 100 -> exists v, ho_F_f m P 0 w = Fin v /\ near v (quantum P w / 2) 20.
Proof.
  intros W. assert (BX : box w w) by (split; exact W). unfold ho_F_f. rewrite (guard_false w (proj1 W)), zero_T, (hw_fin P PH w w BX), (mn_fin m M P PH).
  pose proof (hw_pos P PH w w BX) as HP. pose proof (hw_bounds P PH w w BX) as HB. pose proof (M0_pos P PH) as MP. pose proof (M0_bounds P PH) as MB.
  assert (HH : b2 (-212) <= 1 / 2 * (hpl P * w) <= b2 (-11)).
  { rewrite (b2_split 1 (-212) (-211)), (b2_split 1 (-11) (-10)), b2_1 in HB by lia. lra. }
  destruct (step_mul (1 / 2) (1 / 2) (rnd (hpl P * w)) (hpl P * w) 0 2) as [F1 Q1]; [apply near_refl|exact (hw_near P PH w w BX)|lra|lra|lra|lra|lra| |].
  { split; [apply Rle_trans with (b2 (-212)); [bp|lra]|apply Rle_trans with (b2 (-11)); [lra|bp]]. }
  rewrite F1.
  destruct (step_mul (rnd (milli m * NA P)) (M0 P) (rnd (1 / 2 * rnd (hpl P * w))) (1 / 2 * (hpl P * w)) 6 (0 + 2 + 4)) as [F2 Q2]; [exact (mn_near m M P PH)|exact Q1|lra|lra|lra|lra|lra| |].
  { split; [apply Rle_trans with (b2 68 * b2 (-212)); [bp|]|apply Rle_trans with (b2 79 * b2 (-11)); [|bp]]; apply Rmult_le_compat; try lra; left; apply b2_pos. }
  rewrite F2. eexists. split; [reflexivity|]. replace (quantum P w / 2) with (M0 P * (1 / 2 * (hpl P * w))) by (unfold quantum, M0; field). eapply near_weaken; [exact Q2|lra].
Qed.
Lemma F_ok T w : usable P T w -> mode_ok (ho_F_f m P T w) (ho_F P T w) (size_F P T w).
Proof.
  intros U. unfold size_F, if_real. destruct U as [W|[(-> & W)|RG]].
  - unfold ho_F_f, ho_F. rewrite (guard_true w W). apply mode_zero.
  - destruct (F_zero w W) as (v & F & B). exists v. split; [exact F|]. pose proof (quantum_bounds w W) as QB.
    assert (E : ho_F P 0 w = quantum P w / 2) by (unfold ho_F; rewrite (guard_false w (proj1 W)), zero_T; unfold quantum; field).
    rewrite E, (guard_false w (proj1 W)). assert (TZ : thermal P 0 = 0) by (unfold thermal; ring). rewrite TZ, Rmult_0_l, Rplus_0_r.
    unfold near in B. rewrite (Rabs_pos_eq (quantum P w / 2)) in * by lra.
    assert (20 * u <= b2 (-41)) by (unfold u; apply Rle_trans with (b2 5 * b2 (-53)); [change (b2 5) with 32; pose proof (b2_pos (-53)); lra|bp]).
    assert (20 * u * quantum P w <= b2 (-41) * quantum P w) by (apply Rmult_le_compat_r; lra). pose proof u_pos.
    assert (0 < u * quantum P w) by (apply Rmult_lt_0_compat; lra). assert (b2 80 <= b2 300) by bp. repeat split; lra.
  - destruct (F_mode T w RG) as (v & F & B). pose proof (A_bounds T w RG) as AB. destruct RG as (BX & LO). rewrite (guard_false w (proj1 (proj2 BX))). exists v. split; [exact F|].
    pose proof (quantum_bounds w (proj2 BX)) as QB. pose proof (thermal_bounds T w BX) as TB. set (a := 1 + / xi P T w) in *.
    assert (TA : 0 < thermal P T * a <= b2 110 * b2 41) by (split; [apply Rmult_lt_0_compat|apply Rmult_le_compat]; lra).
    set (s := quantum P w + thermal P T * a) in *. assert (SP : 0 < s) by (unfold s; lra).
    assert (SU : s <= b2 300). { unfold s. rewrite <- bpow_plus in TA. change (110 + 41)%Z with 151%Z in TA. assert (b2 80 <= b2 299) by bp. assert (b2 151 <= b2 299) by bp. rewrite (b2_split 1 299 300), b2_1 by lia. lra. }
    assert (b2 (-46) * s <= b2 (-41) * s) by (apply Rmult_le_compat_r; [lra|bp]).
    assert (EB : Rabs (ho_F P T w) <= 8 * s).
    { rewrite (F_exact P T w BX). destruct (log_error m M P PH T w BX LO) as (_ & _ & _ & L). change (A0 P T w) with a in L.
      replace (M0 P * (1 / 2 * (hpl P * w) + KB P * T * ln (D0 P T w))) with (quantum P w / 2 + thermal P T * ln (D0 P T w)) by (unfold quantum, thermal, M0; field).
      eapply Rle_trans; [apply Rabs_triang|]. rewrite Rabs_mult, (Rabs_pos_eq (quantum P w / 2)), (Rabs_pos_eq (thermal P T)) by lra.
      assert (thermal P T * Rabs (ln (D0 P T w)) <= thermal P T * (2 * a)) by (apply Rmult_le_compat_l; lra). unfold s. lra. }
    repeat split; lra.
Qed.
Lemma Cv_ok T w : usable P T w -> mode_ok (ho_Cv_f m P T w) (ho_Cv P T w) (size_Cv P T w).
Proof.
  intros U. unfold size_Cv, if_real. pose proof gas_bounds as GB. assert (G3 : b2 4 <= b2 300) by bp. destruct U as [W|[(-> & W)|RG]].
  - unfold ho_Cv_f, ho_Cv. rewrite (guard_true w W). apply mode_zero.
  - unfold ho_Cv_f, ho_Cv. rewrite zero_T, orb_true_r, (guard_false w (proj1 W)). exists 0. split; [reflexivity|]. rewrite Rminus_0_r, Rabs_R0. pose proof (b2_pos (-41)).
    assert (0 < b2 (-41) * gas P) by (apply Rmult_lt_0_compat; lra). repeat split; lra.
  - destruct (Cv_mode T w RG) as (v & F & B). destruct RG as (BX & LO). rewrite (guard_false w (proj1 (proj2 BX))). exists v. split; [exact F|].
    pose proof (x_pos P PH T w BX) as X0. fold (xi P T w) in X0. set (x := xi P T w) in *. pose proof (ratio_xx x X0) as R2. pose proof (expm1_pos x X0) as EP. pose proof (ratio_le_1 x X0) as R1.
    pose proof (exp_times_expm1 x ltac:(lra)) as ET. pose proof u_pos.
    assert (E : ho_Cv P T w <= gas P * ((1 + x) * (x / expm1 x))).
    { rewrite (Cv_exact P PH T w BX). change (NK P) with (gas P). fold (xi P T w). fold x. rewrite Rmult_assoc. apply Rmult_le_compat_l; [lra|].
      replace (exp x * (x / expm1 x) ^ 2) with (x * exp x / expm1 x * (x / expm1 x)) by (field; lra). apply Rmult_le_compat_r; [lra|].
      apply Rmult_le_reg_r with (expm1 x); [lra|]. unfold Rdiv at 1. rewrite Rmult_assoc, Rinv_l by lra. lra. }
    pose proof (Cv_pos P PH T w BX) as CP.
    assert (B1 : (1 + x) * ho_Cv P T w <= 36 * gas P).
    { apply Rle_trans with ((1 + x) * (gas P * ((1 + x) * (x / expm1 x)))); [apply Rmult_le_compat_l; lra|].
      replace ((1 + x) * (gas P * ((1 + x) * (x / expm1 x)))) with ((1 + x) * (1 + x) * (x / expm1 x) * gas P) by ring. apply Rmult_le_compat_r; lra. }
    assert (B2 : 96 * u * (1 + x) * ho_Cv P T w <= 3456 * u * gas P).
    { replace (96 * u * (1 + x) * ho_Cv P T w) with (96 * u * ((1 + x) * ho_Cv P T w)) by ring. replace (3456 * u * gas P) with (96 * u * (36 * gas P)) by ring. apply Rmult_le_compat_l; lra. }
    assert (B3 : (3456 * u + b2 (-140)) * gas P <= b2 (-41) * gas P).
    { apply Rmult_le_compat_r; [lra|]. unfold u. apply Rle_trans with (b2 12 * b2 (-53)); [|bp]. change (b2 12) with 4096. pose proof (b2_pos (-53)). assert (b2 (-140) <= b2 (-53)) by bp. lra. }
    assert (B4 : (1 + x) * (x / expm1 x) <= 5) by (pose proof (ratio_x x X0); lra).
    assert (B5 : gas P * ((1 + x) * (x / expm1 x)) <= gas P * 5) by (apply Rmult_le_compat_l; lra).
    rewrite (Rabs_pos_eq (ho_Cv P T w)) by lra. repeat split; lra.
Qed.
End Mode.

(** * Sums of rounded terms *)
Definition total (l : list R) : R := fold_right Rplus 0 l.
Lemma total_snoc l x : total (l ++ [x]) = total l + x.
Proof. unfold total. induction l as [|a l IH]; cbn [app fold_right]; [lra|]. rewrite IH. lra. Qed.
Lemma total_abs l : Rabs (total l) <= total (map Rabs l).
Proof. unfold total. induction l as [|a l IH]; cbn [map fold_right]; [rewrite Rabs_R0; lra|]. eapply Rle_trans; [apply Rabs_triang|]. lra. Qed.
Lemma total_abs_pos l : 0 <= total (map Rabs l).
Proof. eapply Rle_trans; [apply Rabs_pos|apply total_abs]. Qed.
Lemma small_count n : INR n <= b2 50 -> 0 <= INR n * u <= / 8.
Proof.
  intros H. pose proof u_pos. pose proof (pos_INR n). split; [apply Rmult_le_pos; lra|]. apply Rle_trans with (b2 50 * u); [apply Rmult_le_compat_r; lra|].
  unfold u. rewrite <- bpow_plus. right. reflexivity.
Qed.
Lemma sum_fin l : INR (length l) <= b2 50 -> total (map Rabs l) <= b2 900 ->
  exists s, fold_left fadd (map Fin l) (Fin 0) = Fin s /\
    Rabs (s - total l) <= 2 * INR (length l) * u * total (map Rabs l) + INR (length l) * b2 (-1074).
Proof.
  induction l as [|t l IH] using rev_ind; intros L A.
  - exists 0. split; [reflexivity|]. cbn. rewrite Rminus_0_r, Rabs_R0. lra.
  - rewrite app_length, Nat.add_comm in *. cbn [length Nat.add] in *. rewrite S_INR in *. rewrite map_app in A. cbn [map] in A. rewrite total_snoc in A.
    pose proof (total_abs_pos l) as P0. pose proof (Rabs_pos t) as Pt. pose proof (pos_INR (length l)) as N0. destruct IH as (s & F & B); [lra|lra|].
    pose proof (small_count (length l) ltac:(lra)) as SC. pose proof u_pos as U0. pose proof (b2_pos (-1074)) as B74.
    rewrite !map_app, fold_left_app, F, !total_snoc. cbn [map fold_left]. rewrite total_snoc.
    set (n := INR (length l)) in *. set (T := total (map Rabs l)) in *.
    assert (NB : n * b2 (-1074) <= b2 (-1024)). { rewrite (b2_split 50 (-1074) (-1024)) by lia. apply Rmult_le_compat_r; lra. }
    assert (E : 2 * n * u * T <= / 4 * T). { replace (2 * n * u * T) with (2 * (n * u) * T) by ring. apply Rmult_le_compat_r; lra. }
    assert (ST : Rabs (s + t) <= 2 * (T + Rabs t) + n * b2 (-1074)).
    { pose proof (total_abs l) as TA. fold T in TA. replace (s + t) with ((s - total l) + total l + t) by ring. eapply Rle_trans; [apply Rabs_triang|].
      pose proof (Rabs_triang (s - total l) (total l)). lra. }
    rewrite add_fin.
    + eexists. split; [reflexivity|]. pose proof (rnd_err (s + t)) as Q.
      assert (Q1 : u * Rabs (s + t) <= 2 * u * (T + Rabs t) + / 8 * b2 (-1074)).
      { apply Rle_trans with (u * (2 * (T + Rabs t) + n * b2 (-1074))); [apply Rmult_le_compat_l; lra|].
        replace (u * (2 * (T + Rabs t) + n * b2 (-1074))) with (2 * u * (T + Rabs t) + n * u * b2 (-1074)) by ring. apply Rplus_le_compat_l. apply Rmult_le_compat_r; lra. }
      assert (Q2 : 2 * b2 (-1075) = b2 (-1074)) by (rewrite (b2_split 1 (-1075) (-1074)), b2_1 by lia; ring).
      assert (Q3 : 0 <= 2 * n * u * Rabs t). { replace (2 * n * u * Rabs t) with (2 * (n * u) * Rabs t) by ring. apply Rmult_le_pos; lra. }
      replace (rnd (s + t) - (total l + t)) with ((rnd (s + t) - (s + t)) + (s - total l)) by ring. eapply Rle_trans; [apply Rabs_triang|]. lra.
    + apply Rle_trans with (1 := ST). assert (b2 (-1024) <= b2 900) by bp. apply Rle_trans with (b2 2 * b2 900); [change (b2 2) with 4; lra|bp].
Qed.

(** A mode times its weight. *)
Lemma term_ok f e s w : mode_ok f e s -> 0 <= w <= b2 100 ->
  exists t, fmul f (Fin w) = Fin t /\ Rabs (t - e * w) <= b2 (-40) * (s * w) + b2 (-1075) /\ Rabs t <= 10 * (s * w) + b2 (-1075).
Proof.
  intros (v & -> & E & B & S0) W. pose proof u_pos as U0. pose proof u_small as US. pose proof (b2_pos (-41)) as B41.
  assert (SW : 0 <= s * w <= b2 300 * b2 100) by (split; [apply Rmult_le_pos|apply Rmult_le_compat]; lra).
  assert (M41 : b2 (-41) <= / 4) by (change (/ 4) with (b2 (-2)); bp). assert (SS : b2 (-41) * s <= / 4 * s) by (apply Rmult_le_compat_r; lra).
  assert (V : Rabs v <= 9 * s). { replace v with (e + (v - e)) by ring. eapply Rle_trans; [apply Rabs_triang|]. lra. }
  assert (VW : Rabs (v * w) <= 9 * (s * w)). { rewrite Rabs_mult, (Rabs_pos_eq w) by lra. replace (9 * (s * w)) with (9 * s * w) by ring. apply Rmult_le_compat_r; lra. }
  assert (UV : u * Rabs (v * w) <= u * (9 * (s * w))) by (apply Rmult_le_compat_l; lra).
  assert (9 * u <= b2 (-41)) by (unfold u; apply Rle_trans with (b2 4 * b2 (-53)); [change (b2 4) with 16; pose proof (b2_pos (-53)); lra|bp]).
  assert (UV2 : 9 * u * (s * w) <= b2 (-41) * (s * w)) by (apply Rmult_le_compat_r; lra).
  assert (UV3 : 9 * u * (s * w) <= 1 * (s * w)) by (apply Rmult_le_compat_r; lra).
  assert (VE : Rabs (v * w - e * w) <= b2 (-41) * (s * w)).
  { replace (v * w - e * w) with ((v - e) * w) by ring. rewrite Rabs_mult, (Rabs_pos_eq w) by lra. rewrite <- Rmult_assoc. apply Rmult_le_compat_r; lra. }
  rewrite mul_fin.
  - exists (rnd (v * w)). split; [reflexivity|]. pose proof (rnd_err (v * w)) as Q. assert (D : b2 (-40) = 2 * b2 (-41)) by (rewrite (b2_split 1 (-41) (-40)), b2_1 by lia; ring).
    split.
    + replace (rnd (v * w) - e * w) with ((rnd (v * w) - v * w) + (v * w - e * w)) by ring. eapply Rle_trans; [apply Rabs_triang|]. rewrite D. lra.
    + replace (rnd (v * w)) with ((rnd (v * w) - v * w) + v * w) by ring. eapply Rle_trans; [apply Rabs_triang|]. lra.
  - apply Rle_trans with (1 := VW). apply Rle_trans with (b2 4 * (b2 300 * b2 100)); [change (b2 4) with 16; lra|bp].
Qed.

(** * A column of the tables *)
Lemma exec_column {A} (add : A -> A -> A) (l : list (nat * A)) i : forall mem c,
  exec add (map (fun p => AddTo i (fst p) (snd p)) l) mem i c = fold_left add (map snd (filter (fun p => Nat.eqb (fst p) c) l)) (mem i c).
Proof.
  induction l as [|[c0 v] l IH]; intros mem c; [reflexivity|]. cbn [map fst snd exec filter]. rewrite IH. unfold write. rewrite Nat.eqb_refl. cbn [andb].
  rewrite (Nat.eqb_sym c c0). destruct (Nat.eqb_spec c0 c) as [->|]; reflexivity.
Qed.
Lemma filter_flat_map {A B} (f : B -> bool) (g : A -> list B) l : filter f (flat_map g l) = flat_map (fun x => filter f (g x)) l.
Proof. induction l as [|a l IH]; [reflexivity|]. cbn [flat_map]. rewrite filter_app, IH. reflexivity. Qed.
Lemma filter_column {A} (v : nat -> A) c n : (c < n)%nat -> filter (fun p : nat * A => Nat.eqb (fst p) c) (map (fun n => (n, v n)) (seq 0 n)) = [(c, v c)].
Proof.
  intros L. assert (G : forall a k, filter (fun p : nat * A => Nat.eqb (fst p) c) (map (fun n => (n, v n)) (seq a k)) = if (a <=? c)%nat && (c <? a + k)%nat then [(c, v c)] else []).
  { intros a k. revert a. induction k as [|k IH]; intros a; cbn [seq map filter].
    - destruct (Nat.leb_spec a c), (Nat.ltb_spec c (a + 0)); cbn; try reflexivity; lia.
    - cbn [fst]. rewrite IH. destruct (Nat.eqb_spec a c) as [->|].
      + destruct (Nat.leb_spec (S c) c); [lia|]. cbn [andb]. rewrite Nat.leb_refl. destruct (Nat.ltb_spec c (c + S k)); [reflexivity|lia].
      + destruct (Nat.leb_spec (S a) c), (Nat.leb_spec a c), (Nat.ltb_spec c (S a + k)), (Nat.ltb_spec c (a + S k)); cbn [andb]; try reflexivity; lia. }
  rewrite G. destruct (Nat.ltb_spec c (0 + n)); [reflexivity|lia].
Qed.
Lemma map_flat {A B C} (f : B -> C) (g : A -> list B) l : map f (flat_map g l) = flat_map (fun x => map f (g x)) l.
Proof. induction l as [|a l IH]; [reflexivity|]. cbn [flat_map]. now rewrite map_app, IH. Qed.
Lemma flat_map_single {A B} (f : A -> B) l : flat_map (fun x => [f x]) l = map f l.
Proof. induction l as [|a l IH]; [reflexivity|]. cbn. now rewrite IH. Qed.
Lemma column_loop ho nt T b w i n : (i < nt)%nat -> (n < nv b)%nat ->
  band_loop_f ho nt T b w i n =
  fold_left fadd (map (fun jk => fmul (ho (T i) (freq b (fst jk) (snd jk) n)) (Fin (w (fst jk)))) (list_prod (seq 0 (nb b)) (seq 0 (nf b)))) (Fin 0).
Proof.
  intros Hi Hn. unfold band_loop_f.
  assert (EQ : forall i, accumulate (nb b) (nf b) (nv b) (fun i j k n => fmul (ho (T i) (freq b j k n)) (Fin (w j))) i =
     map (fun p => AddTo i (fst p) (snd p)) (flat_map (fun j => flat_map (fun k => map (fun n => (n, fmul (ho (T i) (freq b j k n)) (Fin (w j)))) (seq 0 (nv b))) (seq 0 (nf b))) (seq 0 (nb b)))).
  { intros a. unfold accumulate. rewrite map_flat. apply flat_map_ext. intros j. rewrite map_flat. apply flat_map_ext. intros k. rewrite map_map. reflexivity. }
  rewrite exec_seq_row; [| |exact Hi].
  - rewrite EQ, exec_column, filter_flat_map, map_flat. f_equal. rewrite (flat_map_ext _ (fun j => map (fun k => fmul (ho (T i) (freq b j k n)) (Fin (w j))) (seq 0 (nf b)))).
    + generalize (seq 0 (nb b)). induction l as [|j l IH]; [reflexivity|]. cbn [flat_map list_prod]. rewrite map_app, map_map, IH. reflexivity.
    + intros j. rewrite filter_flat_map, map_flat. rewrite (flat_map_ext _ (fun k => [fmul (ho (T i) (freq b j k n)) (Fin (w j))])).
      * apply flat_map_single.
      * intros k. rewrite (filter_column (fun n => fmul (ho (T i) (freq b j k n)) (Fin (w j)))) by exact Hn. reflexivity.
  - intros i' o _ I. rewrite EQ in I. apply in_map_iff in I as (p & <- & _). reflexivity.
Qed.
Lemma total_app l l' : total (l ++ l') = total l + total l'.
Proof. unfold total. induction l as [|a l IH]; cbn [app fold_right]; [lra|]. rewrite IH. lra. Qed.
Lemma total_seq f n : total (map f (seq 0 n)) = Rsum n f.
Proof. induction n; [reflexivity|]. rewrite seq_S, map_app, total_app, IHn. cbn [map Nat.add]. unfold total at 1. cbn [fold_right Rsum]. lra. Qed.
Lemma total_prod (f : nat -> nat -> R) n k : total (map (fun jk => f (fst jk) (snd jk)) (list_prod (seq 0 n) (seq 0 k))) = Rsum n (fun j => Rsum k (f j)).
Proof.
  induction n; [reflexivity|]. rewrite seq_S. assert (LP : forall (a c : list nat) l, list_prod (a ++ c) l = list_prod a l ++ list_prod c (l : list nat)).
  { intros a c l. induction a as [|z a IH]; [reflexivity|]. cbn [app list_prod]. now rewrite IH, app_assoc. }
  rewrite LP, map_app, total_app, IHn. cbn [list_prod Nat.add Rsum]. rewrite app_nil_r, map_map. cbn [fst snd]. now rewrite total_seq.
Qed.
Lemma total_le {A} (f g : A -> R) l : (forall a, In a l -> f a <= g a) -> total (map f l) <= total (map g l).
Proof. unfold total. induction l as [|a l IH]; intros H; cbn [map fold_right]; [lra|]. pose proof (H a (or_introl eq_refl)). assert (fold_right Rplus 0 (map f l) <= fold_right Rplus 0 (map g l)) by (apply IH; intros; apply H; now right). lra. Qed.
Lemma total_diff {A} (f g h : A -> R) l : (forall a, In a l -> Rabs (f a - g a) <= h a) -> Rabs (total (map f l) - total (map g l)) <= total (map h l).
Proof.
  unfold total. induction l as [|a l IH]; intros H; cbn [map fold_right]; [rewrite Rminus_0_r, Rabs_R0; lra|]. pose proof (H a (or_introl eq_refl)).
  assert (Rabs (fold_right Rplus 0 (map f l) - fold_right Rplus 0 (map g l)) <= fold_right Rplus 0 (map h l)) by (apply IH; intros; apply H; now right).
  replace (f a + fold_right Rplus 0 (map f l) - (g a + fold_right Rplus 0 (map g l))) with ((f a - g a) + (fold_right Rplus 0 (map f l) - fold_right Rplus 0 (map g l))) by ring.
  eapply Rle_trans; [apply Rabs_triang|]. lra.
Qed.
Lemma total_affine {A} (f : A -> R) c d l : total (map (fun a => c * f a + d) l) = c * total (map f l) + INR (length l) * d.
Proof. unfold total. induction l as [|a l IH]; cbn [map fold_right length]; [cbn; lra|]. rewrite IH, S_INR. lra. Qed.
Lemma total_const_le {A} (f : A -> R) c l : (forall a, In a l -> f a <= c) -> total (map f l) <= INR (length l) * c.
Proof. unfold total. induction l as [|a l IH]; intros H; cbn [map fold_right length]; [cbn; lra|]. rewrite S_INR. pose proof (H a (or_introl eq_refl)). assert (fold_right Rplus 0 (map f l) <= INR (length l) * c) by (apply IH; intros; apply H; now right). lra. Qed.

Lemma choose_terms {A} (F : A -> fp) (Q : A -> R -> Prop) l : (forall a, In a l -> exists t, F a = Fin t /\ Q a t) ->
  exists g, map F l = map Fin (map g l) /\ forall a, In a l -> Q a (g a).
Proof.
  intros H. exists (fun a => match F a with Fin t => t | _ => 0 end). split.
  - rewrite map_map. apply map_ext_in. intros a I. destruct (H a I) as (t & -> & _). reflexivity.
  - intros a I. destruct (H a I) as (t & -> & q). exact q.
Qed.

Lemma table_error ho_f ho size nt T b w i n :
  (i < nt)%nat -> (n < nv b)%nat -> INR (nb b * nf b) <= b2 50 ->
  (forall j, (j < nb b)%nat -> 0 <= w j <= b2 100) ->
  (forall j k, (j < nb b)%nat -> (k < nf b)%nat -> mode_ok (ho_f (T i) (freq b j k n)) (ho (T i) (freq b j k n)) (size (T i) (freq b j k n))) ->
  exists v, band_loop_f ho_f nt T b w i n = Fin v /\
    Rabs (v - band_loop ho nt T b w i n) <=
      INR (nb b * nf b) * (b2 (-39) * band_sum b w n (size (T i)) + b2 (-1072)).
Proof.
  intros Hi Hn HN HW HM. rewrite column_loop, band_loop_sum by assumption.
  set (L := list_prod (seq 0 (nb b)) (seq 0 (nf b))). set (N := (nb b * nf b)%nat) in *.
  assert (LEN : length L = N) by (unfold L, N; rewrite prod_length, !seq_length; reflexivity).
  assert (IN : forall jk, In jk L -> (fst jk < nb b)%nat /\ (snd jk < nf b)%nat).
  { intros [j k] I. apply in_prod_iff in I as [I1 I2]. apply in_seq in I1. apply in_seq in I2. cbn. lia. }
  set (sz := fun jk : nat * nat => size (T i) (freq b (fst jk) (snd jk) n) * w (fst jk)). set (ex := fun jk : nat * nat => ho (T i) (freq b (fst jk) (snd jk) n) * w (fst jk)).
  assert (SZ : band_sum b w n (size (T i)) = total (map sz L)) by (symmetry; apply (total_prod (fun j k => size (T i) (freq b j k n) * w j))).
  assert (EX : band_sum b w n (ho (T i)) = total (map ex L)) by (symmetry; apply (total_prod (fun j k => ho (T i) (freq b j k n) * w j))).
  rewrite SZ, EX.
  destruct (choose_terms (fun jk => fmul (ho_f (T i) (freq b (fst jk) (snd jk) n)) (Fin (w (fst jk))))
    (fun jk t => Rabs (t - ex jk) <= b2 (-40) * sz jk + b2 (-1075) /\ Rabs t <= 10 * sz jk + b2 (-1075)) L) as (g & G & GB).
  { intros jk I. destruct (IN jk I) as [J K]. apply term_ok; [apply HM; assumption|apply HW; exact J]. }
  rewrite G. assert (SB : forall jk, In jk L -> 0 <= sz jk <= b2 400).
  { intros jk I. destruct (IN jk I) as [J K]. destruct (HM _ _ J K) as (_ & _ & _ & _ & S0). specialize (HW _ J). unfold sz. split; [apply Rmult_le_pos; lra|].
    apply Rle_trans with (b2 300 * b2 100); [apply Rmult_le_compat; lra|bp]. }
  assert (TS : 0 <= total (map sz L)). { replace 0 with (total (map (fun _ : nat * nat => 0) L)); [apply total_le; intros a I; apply SB, I|]. clear. induction L; [reflexivity|]. unfold total in *. cbn [map fold_right]. rewrite IHL. lra. }
  pose proof (pos_INR N) as N0. pose proof (b2_pos 400) as P4.
  assert (TU : total (map sz L) <= b2 450). { apply Rle_trans with (INR N * b2 400); [rewrite <- LEN; apply total_const_le; intros a I; apply SB, I|]. rewrite (b2_split 50 400 450) by lia. apply Rmult_le_compat_r; lra. }
  assert (AB : total (map Rabs (map g L)) <= 10 * total (map sz L) + INR N * b2 (-1075)).
  { rewrite map_map, <- LEN, <- total_affine. apply total_le. intros a I. apply GB, I. }
  pose proof (b2_pos (-1075)) as B75. assert (NS : INR N * b2 (-1075) <= b2 50 * b2 (-1075)) by (apply Rmult_le_compat_r; lra).
  assert (NS2 : b2 50 * b2 (-1075) <= b2 450) by bp.
  destruct (sum_fin (map g L)) as (s & F & B).
  { rewrite map_length, LEN. exact HN. }
  { apply Rle_trans with (1 := AB). apply Rle_trans with (b2 4 * b2 450); [change (b2 4) with 16; lra|bp]. }
  exists s. split; [exact F|]. rewrite map_length, LEN in B.
  assert (D : Rabs (total (map g L) - total (map ex L)) <= b2 (-40) * total (map sz L) + INR N * b2 (-1075)).
  { rewrite <- LEN, <- total_affine. apply total_diff. intros a I. apply GB, I. }
  destruct (Nat.eq_dec N 0) as [Z|NZ].
  { rewrite Z in *. cbn [INR] in *. assert (L0 : L = []) by (apply length_zero_iff_nil; lia). rewrite L0 in *. cbn [map] in *. unfold total in *. cbn [fold_right] in *.
    replace (s - 0) with ((s - 0) + (0 - 0)) by ring. eapply Rle_trans; [apply Rabs_triang|]. lra. }
  assert (N1 : 1 <= INR N) by (change 1 with (INR 1); apply le_INR; lia).
  set (S := total (map sz L)) in *. set (x := INR N) in *. pose proof u_pos as U0.
  assert (E1 : 2 * x * u * total (map Rabs (map g L)) <= 2 * x * u * (10 * S + x * b2 (-1075))).
  { apply Rmult_le_compat_l; [|exact AB]. apply Rmult_le_pos; lra. }
  pose proof (small_count N HN) as SC. fold x in SC.
  assert (E2 : 2 * x * u * (x * b2 (-1075)) <= x * b2 (-1075)).
  { replace (2 * x * u * (x * b2 (-1075))) with (2 * (x * u) * (x * b2 (-1075))) by ring. rewrite <- (Rmult_1_l (x * b2 (-1075))) at 2. apply Rmult_le_compat_r; [apply Rmult_le_pos; lra|lra]. }
  assert (E3 : 20 * u <= b2 (-40)) by (unfold u; apply Rle_trans with (b2 5 * b2 (-53)); [change (b2 5) with 32; pose proof (b2_pos (-53)); lra|bp]).
  assert (XS : 0 <= x * S) by (apply Rmult_le_pos; lra).
  assert (E4 : 20 * u * (x * S) <= b2 (-40) * (x * S)) by (apply Rmult_le_compat_r; lra).
  assert (E5 : b2 (-40) * S <= b2 (-40) * (x * S)). { apply Rmult_le_compat_l; [left; apply b2_pos|]. rewrite <- (Rmult_1_l S) at 1. apply Rmult_le_compat_r; lra. }
  assert (H39 : b2 (-39) = 2 * b2 (-40)) by (rewrite (b2_split 1 (-40) (-39)), b2_1 by lia; ring).
  assert (H74 : b2 (-1074) = 2 * b2 (-1075)) by (rewrite (b2_split 1 (-1075) (-1074)), b2_1 by lia; ring).
  assert (H72 : b2 (-1072) = 8 * b2 (-1075)) by (rewrite (b2_split 3 (-1075) (-1072)) by lia; reflexivity).
  replace (s - total (map ex L)) with ((s - total (map g L)) + (total (map g L) - total (map ex L))) by ring. eapply Rle_trans; [apply Rabs_triang|].
  rewrite H39, H72. rewrite H74 in B. assert (0 <= x * b2 (-1075)) by (apply Rmult_le_pos; lra). lra.
Qed.
