(** C76: temperature and pressure ranges as computed in double precision. *)
From Coq Require Import Reals List ZArith Lia Lra Psatz.
From Flocq Require Import Core.
From Verif Require Import StatMechModel ThermoProps GridModel GridProps GridFloatModel GridFloatProofs.
Import ListNotations.
Open Scope R_scope.

Lemma Rabs_bounds x b : Rabs x <= b -> - b <= x <= b.
Proof. apply Rabs_le_inv. Qed.
Lemma count_upper start stop step k :
  0 < step -> let next := rnd (stop - start) in
  (k < count_f start stop step)%nat -> INR k * step < next + u * Rabs next + u ^ 2 * step.
Proof.
  intros P next. unfold count_f. fold next. set (v := rnd (next / step)). intros H.
  pose proof (rnd_error (next / step)) as E. fold v in E. apply Rabs_bounds in E.
  assert (Ek : INR k < next / step + u * Rabs (next / step) + u ^ 2).
  { pose proof u_pos. assert (0 <= u * Rabs (next / step)) by (apply Rmult_le_pos; [lra|apply Rabs_pos]).
    assert (0 < u ^ 2) by nra.
    destruct (Req_b v 0) eqn:V.
    - destruct (Req_b next 0); [lia|]. destruct (Rlt_dec 0 (next / step)); [|lia].
      assert (k = 0%nat) by lia. subst k. cbn [INR]. lra.
    - apply ceil_index in H. lra. }
  apply Rmult_lt_compat_r with (r := step) in Ek; auto.
  replace ((next / step + u * Rabs (next / step) + u ^ 2) * step) with (next + u * Rabs next + u ^ 2 * step) in Ek; auto.
  unfold Rdiv. rewrite Rabs_mult, Rabs_inv, (Rabs_pos_eq step) by lra. field. lra.
Qed.
Lemma count_lower start stop step k :
  0 < step -> let next := rnd (stop - start) in
  INR k * step < next - u * Rabs next - u ^ 2 * step -> (k < count_f start stop step)%nat.
Proof.
  intros P next H. unfold count_f. fold next. set (v := rnd (next / step)).
  pose proof (rnd_error (next / step)) as E. fold v in E. apply Rabs_bounds in E.
  assert (Ek : INR k < next / step - u * Rabs (next / step) - u ^ 2).
  { apply Rmult_lt_reg_r with step; auto.
    replace ((next / step - u * Rabs (next / step) - u ^ 2) * step) with (next - u * Rabs next - u ^ 2 * step); auto.
    unfold Rdiv. rewrite Rabs_mult, Rabs_inv, (Rabs_pos_eq step) by lra. field. lra. }
  pose proof (pos_INR k).
  destruct (Req_b v 0) eqn:V; [apply Req_b_true in V; lra|]. apply ceil_index. lra.
Qed.

(** The uncertainty of the upper end: four units of roundoff of the numbers typed. *)
Definition slack (lo hi step : R) : R := 4 / 2 ^ 53 * (Rabs lo + Rabs hi + step).
Lemma next_error lo hi step : double lo -> double hi -> double step -> 0 < step ->
  let next := rnd (rnd (hi + step) - lo) in
  Rabs (next - (hi + step - lo)) <= (2 * u + u ^ 2) * (Rabs lo + Rabs hi + step).
Proof.
  intros L H T P next. set (A := Rabs lo + Rabs hi + step).
  assert (E1 : Rabs (rnd (hi + step) - (hi + step)) <= u * A).
  { eapply Rle_trans; [apply rnd_relative, multiple_plus; now apply double_multiple|].
    apply Rmult_le_compat_l; [left; apply u_pos|]. eapply Rle_trans; [apply Rabs_triang|].
    rewrite (Rabs_pos_eq step) by lra. unfold A. pose proof (Rabs_pos lo). lra. }
  assert (E2 : Rabs (next - (rnd (hi + step) - lo)) <= u * Rabs (rnd (hi + step) - lo)).
  { apply rnd_relative, multiple_minus; apply double_multiple; auto. apply double_rnd. }
  assert (E3 : Rabs (rnd (hi + step) - lo) <= A + u * A).
  { replace (rnd (hi + step) - lo) with ((rnd (hi + step) - (hi + step)) + (hi + (step + - lo))) by ring.
    eapply Rle_trans; [apply Rabs_triang|].
    assert (Rabs (hi + (step + - lo)) <= A).
    { eapply Rle_trans; [apply Rabs_triang|]. pose proof (Rabs_triang step (- lo)). rewrite Rabs_Ropp, (Rabs_pos_eq step) in H0 by lra.
      unfold A. lra. }
    lra. }
  replace (next - (hi + step - lo)) with ((next - (rnd (hi + step) - lo)) + (rnd (hi + step) - (hi + step))) by ring.
  eapply Rle_trans; [apply Rabs_triang|].
  assert (u * Rabs (rnd (hi + step) - lo) <= u * (A + u * A)) by (apply Rmult_le_compat_l; auto; left; apply u_pos). nra.
Qed.
Lemma slack_value lo hi step : slack lo hi step = 4 * u * (Rabs lo + Rabs hi + step).
Proof. unfold slack. rewrite u_value. field. Qed.

Lemma set_range_f_some lo hi step l : step <> 0 -> set_range_f (lo, hi, step) = Some l ->
  l = map (point_f lo step) (seq 0 (count_f lo (rnd (hi + step)) step)).
Proof.
  intros H. unfold set_range_f, arange_f. apply Req_b_false in H. rewrite H. now intros [= <-].
Qed.

(** The points present are those below max + step, up to the slack. *)
Theorem C76_zero_step lo hi step : set_range_f (lo, hi, step) = None <-> step = 0.
Proof.
  unfold set_range_f, arange_f. destruct (Req_b step 0) eqn:E.
  - split; [|reflexivity]. intros _. unfold Req_b in E. destruct (Req_EM_T step 0); [assumption|discriminate].
  - split; [discriminate|]. intros ->. unfold Req_b in E. destruct (Req_EM_T 0 0); [discriminate|contradiction].
Qed.
Theorem C76_count lo hi step l :
  double lo -> double hi -> double step -> 0 < step -> set_range_f (lo, hi, step) = Some l ->
  forall k, ((k < List.length l)%nat -> point lo step k < hi + step + slack lo hi step) /\
    (point lo step k < hi + step - slack lo hi step -> (k < List.length l)%nat).
Proof.
  intros L H T P E k. apply set_range_f_some in E; [|lra]. subst l. rewrite map_length, seq_length.
  pose proof (next_error lo hi step L H T P) as N. cbv zeta in N.
  rewrite slack_value. unfold point.
  pose proof (count_upper lo (rnd (hi + step)) step k P) as U. pose proof (count_lower lo (rnd (hi + step)) step k P) as W.
  cbv zeta in U, W. set (next := rnd (rnd (hi + step) - lo)) in *. set (A := Rabs lo + Rabs hi + step) in *.
  assert (SA : step <= A) by (unfold A; pose proof (Rabs_pos lo); pose proof (Rabs_pos hi); lra).
  assert (XA : Rabs (hi + step - lo) <= A).
  { replace (hi + step - lo) with (hi + (step + - lo)) by ring. eapply Rle_trans; [apply Rabs_triang|].
    pose proof (Rabs_triang step (- lo)) as Q. rewrite Rabs_Ropp, (Rabs_pos_eq step) in Q by lra. unfold A. lra. }
  assert (NA : Rabs next <= A + (2 * u + u ^ 2) * A).
  { replace next with ((next - (hi + step - lo)) + (hi + step - lo)) by ring. eapply Rle_trans; [apply Rabs_triang|]. lra. }
  apply Rabs_bounds in N. rewrite u_value in *.
  set (a := Rabs next) in *. clearbody a next A. split; intros Q.
  - specialize (U Q). nra.
  - apply W. nra.
Qed.

(** No requested point is lost and at most one point past max + step could appear. *)
Theorem C76_none_missing lo hi step l n :
  double lo -> double hi -> double step -> 0 < step -> slack lo hi step < step ->
  set_range_f (lo, hi, step) = Some l ->
  (forall k, point lo step k <= hi -> (k < List.length l)%nat) /\
  (point lo step n <= hi < point lo step (S n) -> (S n <= List.length l <= n + 3)%nat).
Proof.
  intros L H T P SL E. split.
  - intros k K. apply (C76_count _ _ _ _ L H T P E). lra.
  - intros [A B]. destruct (C76_count _ _ _ _ L H T P E n) as [_ C]. split; [apply C; lra|].
    destruct (Nat.le_gt_cases (List.length l) (n + 3)) as [G|G]; auto. exfalso.
    destruct (C76_count _ _ _ _ L H T P E (n + 3)) as [C3 _]. specialize (C3 ltac:(lia)).
    unfold point in *. rewrite plus_INR in C3. rewrite S_INR in B. cbn [INR] in C3. lra.
Qed.
(** When max is a point of the range, the count is right or one too many. *)
Theorem C76_whole_range lo hi step l n :
  double lo -> double hi -> double step -> 0 < step -> slack lo hi step < step ->
  hi = point lo step n -> set_range_f (lo, hi, step) = Some l ->
  (List.length l = S n \/ List.length l = S (S n)) /\ nth 0 l 0 = lo.
Proof.
  intros L H T P SL N E.
  destruct (C76_count _ _ _ _ L H T P E n) as [_ C]. specialize (C ltac:(unfold point in *; lra)).
  assert (D : ~ (S (S n) < List.length l)%nat).
  { intros Q. apply (C76_count _ _ _ _ L H T P E) in Q. unfold point in *. rewrite !S_INR in Q. lra. }
  split; [lia|]. apply set_range_f_some in E; [|lra]. subst l. rewrite map_length, seq_length in C.
  destruct (count_f lo (rnd (hi + step)) step); [lia|reflexivity].
Qed.
(** Exact count as soon as no point falls into the slack around max + step. *)
Theorem C76_clear_count lo hi step l :
  double lo -> double hi -> double step -> 0 < step -> set_range_f (lo, hi, step) = Some l ->
  (forall k, slack lo hi step < Rabs (point lo step k - (hi + step))) ->
  forall k, (k < List.length l)%nat <-> point lo step k < hi + step.
Proof.
  intros L H T P E F k. specialize (F k). destruct (C76_count _ _ _ _ L H T P E k) as [A B].
  split; intros Q.
  - specialize (A Q). unfold Rabs in F. destruct (Rcase_abs _); lra.
  - apply B. unfold Rabs in F. destruct (Rcase_abs _); lra.
Qed.

(** ** The values *)
Theorem C76_points lo hi step l k :
  double lo -> double step -> 0 < step -> set_range_f (lo, hi, step) = Some l -> (k < List.length l)%nat ->
  Rabs (nth k l 0 - point lo step k) <= INR k * (6 / 2 ^ 53 * (Rabs lo + step)).
Proof.
  intros L T P E K. apply set_range_f_some in E; [|lra]. subst l. rewrite map_length, seq_length in K.
  rewrite nth_indep with (d' := point_f lo step 0) by (rewrite map_length, seq_length; auto).
  rewrite map_nth, seq_nth by auto. cbn [plus]. clear K.
  replace (6 / 2 ^ 53 * (Rabs lo + step)) with (6 * u * (Rabs lo + step)) by (rewrite u_value; field).
  set (B := Rabs lo + step). pose proof (Rabs_pos lo) as LP.
  assert (E1 : Rabs (rnd (lo + step) - (lo + step)) <= u * B).
  { eapply Rle_trans; [apply rnd_relative, multiple_plus; now apply double_multiple|].
    apply Rmult_le_compat_l; [left; apply u_pos|]. eapply Rle_trans; [apply Rabs_triang|].
    rewrite (Rabs_pos_eq step) by lra. unfold B. lra. }
  assert (UB : 0 <= u * B) by (apply Rmult_le_pos; [left; apply u_pos|unfold B; lra]).
  destruct k as [|[|k]].
  - cbn [point_f INR]. unfold point. cbn [INR]. replace (lo - (lo + 0 * step)) with 0 by ring. rewrite Rabs_R0. lra.
  - cbn [point_f]. unfold point. cbn [INR]. replace (lo + 1 * step) with (lo + step) by ring. lra.
  - cbn [point_f]. set (n := S (S k)). unfold point.
    assert (N : 2 <= INR n) by (unfold n; rewrite !S_INR; pose proof (pos_INR k); lra).
    set (w := rnd (lo + step)) in *. set (d := rnd (w - lo)).
    assert (E2 : Rabs (d - (w - lo)) <= u * Rabs (w - lo)).
    { apply rnd_relative, multiple_minus; apply double_multiple; auto. apply double_rnd. }
    assert (W : Rabs (w - lo) <= step + u * B).
    { replace (w - lo) with ((w - (lo + step)) + step) by ring. eapply Rle_trans; [apply Rabs_triang|].
      rewrite (Rabs_pos_eq step) by lra. lra. }
    assert (E3 : Rabs (rnd (INR n * d) - INR n * d) <= u * Rabs (INR n * d)).
    { apply rnd_relative, multiple_times, double_multiple, double_rnd. }
    set (m := rnd (INR n * d)) in *.
    assert (E4 : Rabs (rnd (lo + m) - (lo + m)) <= u * Rabs (lo + m)).
    { apply rnd_relative, multiple_plus; apply double_multiple; auto. apply double_rnd. }
    rewrite Rabs_mult, (Rabs_pos_eq (INR n)) in E3 by lra.
    (* everything in units of INR n * B *)
    assert (D1 : Rabs (d - step) <= 3 * u * B).
    { replace (d - step) with ((d - (w - lo)) + (w - (lo + step))) by ring. eapply Rle_trans; [apply Rabs_triang|].
      assert (u * Rabs (w - lo) <= u * (step + u * B)) by (apply Rmult_le_compat_l; auto; left; apply u_pos).
      assert (step <= B) by (unfold B; lra). rewrite u_value in *. lra. }
    assert (D2 : Rabs d <= step + 3 * u * B).
    { replace d with ((d - step) + step) by ring. eapply Rle_trans; [apply Rabs_triang|]. rewrite (Rabs_pos_eq step) by lra. lra. }
    set (C := INR n * B). assert (SB : step <= B) by (unfold B; lra).
    assert (BC : 2 * B <= C) by (unfold C; apply Rmult_le_compat_r; [unfold B; lra|lra]).
    assert (SC : INR n * step <= C) by (unfold C; apply Rmult_le_compat_l; lra).
    assert (M0 : Rabs (INR n * d - INR n * step) <= 3 * u * C).
    { replace (INR n * d - INR n * step) with (INR n * (d - step)) by ring. rewrite Rabs_mult, (Rabs_pos_eq (INR n)) by lra.
      unfold C. replace (3 * u * (INR n * B)) with (INR n * (3 * u * B)) by ring. apply Rmult_le_compat_l; lra. }
    assert (M1 : u * (INR n * Rabs d) <= u * (C + 3 * u * C)).
    { apply Rmult_le_compat_l; [left; apply u_pos|]. unfold C.
      replace (INR n * B + 3 * u * (INR n * B)) with (INR n * (B + 3 * u * B)) by ring. apply Rmult_le_compat_l; lra. }
    assert (M2 : Rabs (m - INR n * step) <= 3 * u * C + u * (C + 3 * u * C)).
    { replace (m - INR n * step) with ((m - INR n * d) + (INR n * d - INR n * step)) by ring.
      eapply Rle_trans; [apply Rabs_triang|]. lra. }
    assert (M3 : Rabs (lo + m) <= B / 2 + C + (3 * u * C + u * (C + 3 * u * C)) + Rabs lo / 2).
    { replace (lo + m) with ((m - INR n * step) + (lo + INR n * step)) by ring. eapply Rle_trans; [apply Rabs_triang|].
      assert (Rabs (lo + INR n * step) <= Rabs lo + INR n * step).
      { eapply Rle_trans; [apply Rabs_triang|]. rewrite (Rabs_pos_eq (INR n * step)); [lra|]. apply Rmult_le_pos; lra. }
      unfold B in *. lra. }
    assert (M4 : u * Rabs (lo + m) <= u * (B / 2 + C + (3 * u * C + u * (C + 3 * u * C)) + Rabs lo / 2))
      by (apply Rmult_le_compat_l; auto; left; apply u_pos).
    replace (INR n * (6 * u * B)) with (6 * u * C) by (unfold C; ring).
    replace (rnd (lo + m) - (lo + INR n * step)) with ((rnd (lo + m) - (lo + m)) + (m - INR n * step)) by ring.
    eapply Rle_trans; [apply Rabs_triang|].
    assert (LB : Rabs lo <= B) by (unfold B; lra).
    clearbody C. rewrite u_value in *. lra.
Qed.

(** ** Ranges without rounding *)
Lemma round_quotient p c :
  (c <> 0)%Z -> (Z.abs p < 2 ^ 53)%Z -> (Z.abs c < 2 ^ 53)%Z -> ceil (rnd (IZR p / IZR c)) = ceil (IZR p / IZR c).
Proof.
  intros C P1 C1. set (q := IZR p / IZR c).
  assert (CR : 1 <= Rabs (IZR c)) by (rewrite <- abs_IZR; apply IZR_le; lia).
  assert (C0 : IZR c <> 0) by (intros Q; rewrite Q, Rabs_R0 in CR; lra).
  assert (PR : Rabs (IZR p) <= 2 ^ 53 - 1).
  { rewrite <- abs_IZR. replace (2 ^ 53 - 1) with (IZR (2 ^ 53 - 1)); [apply IZR_le; lia|rewrite minus_IZR, pow_IZR; reflexivity]. }
  assert (Q1 : Rabs q * Rabs (IZR c) = Rabs (IZR p)).
  { rewrite <- Rabs_mult. unfold q. f_equal. now field. }
  assert (QB : Rabs q <= 2 ^ 53 - 1).
  { pose proof (Rabs_pos q). nra. }
  destruct (ceil_bound q) as [A B]. set (m := ceil q) in *.
  assert (MZ : (Z.abs m <= 2 ^ 53)%Z).
  { assert (Rabs (IZR m) < 2 ^ 53) by (apply Rabs_bounds in QB; apply Rabs_def1; lra).
    rewrite <- abs_IZR in H. replace (2 ^ 53) with (IZR (2 ^ 53)) in H by (rewrite pow_IZR; reflexivity). apply lt_IZR in H. lia. }
  assert (DM : double (IZR m)).
  { rewrite <- (Rmult_1_r (IZR m)). change 1 with (bpow radix2 0). apply double_scaled_le; [auto|lia]. }
  assert (U : rnd q <= IZR m) by (rewrite <- (rnd_double (IZR m) DM); now apply rnd_le).
  assert (LO : IZR m - 1 < rnd q).
  { destruct (Z.eq_dec p 0) as [->|P0].
    - unfold q in *. replace (0 / IZR c) with 0 in * by (field; auto). unfold rnd. rewrite round_0; auto with typeclass_instances. lra.
    - (* q is at least 1/|c| above the integer m - 1 *)
      assert (G : / Rabs (IZR c) <= q - (IZR m - 1)).
      { assert (Z1 : (IZR p - IZR c * (IZR m - 1)) = IZR (p - c * (m - 1))) by now rewrite minus_IZR, mult_IZR, minus_IZR.
        assert (E : q - (IZR m - 1) = IZR (p - c * (m - 1)) / IZR c) by (rewrite <- Z1; unfold q; now field).
        assert (PP : 0 < q - (IZR m - 1)) by lra.
        assert (N0 : (p - c * (m - 1))%Z <> 0%Z) by (intros Q; rewrite E, Q in PP; unfold Rdiv in PP; rewrite Rmult_0_l in PP; lra).
        rewrite <- (Rabs_pos_eq (q - (IZR m - 1))) by lra. rewrite E. unfold Rdiv. rewrite Rabs_mult, Rabs_inv.
        rewrite <- (Rmult_1_l (/ Rabs (IZR c))) at 1. apply Rmult_le_compat_r.
        - left. apply Rinv_0_lt_compat. lra.
        - rewrite <- abs_IZR. apply IZR_le. lia. }
      assert (R1 : Rabs (rnd q - q) <= u * Rabs q).
      { unfold rnd. pose proof (Relative.relative_error_N_FLT radix2 (-1074) 53 ltac:(lia) (fun x => negb (Z.even x)) q) as L.
        replace u with (/ 2 * bpow radix2 (-53 + 1)).
        - apply L. assert (1 <= Rabs (IZR p)) by (rewrite <- abs_IZR; apply IZR_le; lia).
          assert (CU : Rabs (IZR c) <= 2 ^ 53).
          { rewrite <- abs_IZR. replace (2 ^ 53) with (IZR (2 ^ 53)) by (rewrite pow_IZR; reflexivity). apply IZR_le. lia. }
          apply Rle_trans with (bpow radix2 (-53)); [apply bpow_le; lia|]. fold u. rewrite u_value.
          apply Rmult_le_reg_r with (Rabs (IZR c)); [lra|]. rewrite Q1. lra.
        - unfold u. rewrite bpow_plus. rewrite bpow_1. cbn; lra. }
      assert (R2 : u * Rabs q < / Rabs (IZR c)).
      { apply Rmult_lt_reg_r with (Rabs (IZR c)); [lra|]. rewrite Rmult_assoc, Q1, Rinv_l by lra. rewrite u_value. lra. }
      apply Rabs_bounds in R1. lra. }
  destruct (ceil_bound (rnd q)) as [A' B'].
  assert (IZR (ceil (rnd q)) < IZR m + 1) by lra. assert (IZR m < IZR (ceil (rnd q)) + 1) by lra.
  rewrite <- plus_IZR in *. apply lt_IZR in H, H0. lia.
Qed.
Lemma round_quotient_zero p c : (p <> 0)%Z -> (c <> 0)%Z -> (Z.abs c < 2 ^ 53)%Z -> rnd (IZR p / IZR c) <> 0.
Proof.
  intros P0 C C1 E.
  assert (CR : 1 <= Rabs (IZR c)) by (rewrite <- abs_IZR; apply IZR_le; lia).
  assert (C0 : IZR c <> 0) by (intros Q; rewrite Q, Rabs_R0 in CR; lra).
  assert (CU : Rabs (IZR c) <= 2 ^ 53).
  { rewrite <- abs_IZR. replace (2 ^ 53) with (IZR (2 ^ 53)) by (rewrite pow_IZR; reflexivity). apply IZR_le. lia. }
  assert (PR : 1 <= Rabs (IZR p)) by (rewrite <- abs_IZR; apply IZR_le; lia).
  assert (Q1 : Rabs (IZR p / IZR c) * Rabs (IZR c) = Rabs (IZR p)) by (rewrite <- Rabs_mult; f_equal; now field).
  pose proof (rnd_error (IZR p / IZR c)) as R1. rewrite E in R1. replace (0 - IZR p / IZR c) with (- (IZR p / IZR c)) in R1 by ring.
  rewrite Rabs_Ropp in R1. set (q := Rabs (IZR p / IZR c)) in *. rewrite u_value in R1.
  assert (/ 2 ^ 53 <= q) by (apply Rmult_le_reg_r with (Rabs (IZR c)); [lra|]; rewrite Q1; nra).
  nra.
Qed.

(** min, max and step that are whole multiples of one power of two, below 2^52
    of it: the range is exactly the mathematical one. *)
Theorem C76_exact a b c e :
  (c <> 0)%Z -> (Z.abs a + Z.abs b + Z.abs c < 2 ^ 52)%Z -> (-1074 <= e)%Z ->
  let t := bpow radix2 e in
  set_range_f (IZR a * t, IZR b * t, IZR c * t) = set_range (IZR a * t, IZR b * t, IZR c * t).
Proof.
  intros C B E t. assert (T : 0 < t) by apply bpow_gt_0.
  assert (CR : IZR c <> 0) by (intros Q; apply eq_IZR in Q; lia).
  assert (S0 : IZR c * t <> 0) by (apply Rmult_integral_contrapositive_currified; lra).
  rewrite set_range_some by auto. unfold set_range_f, arange_f. pose proof S0 as S1. apply Req_b_false in S1. rewrite S1. f_equal.
  assert (EXP : forall z, (Z.abs z < 2 ^ 53)%Z -> rnd (IZR z * t) = IZR z * t) by (intros; apply rnd_double, double_scaled; auto).
  assert (CNT : count_f (IZR a * t) (rnd (IZR b * t + IZR c * t)) (IZR c * t) =
    Z.to_nat (ceil ((IZR b * t + IZR c * t - IZR a * t) / (IZR c * t)))).
  { unfold count_f. replace (IZR b * t + IZR c * t) with (IZR (b + c) * t) by (rewrite plus_IZR; ring).
    rewrite EXP by lia. replace (IZR (b + c) * t - IZR a * t) with (IZR (b + c - a) * t) by (rewrite minus_IZR; ring).
    rewrite EXP by lia. replace (IZR (b + c - a) * t / (IZR c * t)) with (IZR (b + c - a) / IZR c) by (field; lra).
    destruct (Z.eq_dec (b + c - a) 0) as [Q|Q].
    - rewrite Q. replace (0 / IZR c) with 0 by (field; auto). replace (rnd 0) with 0 by (symmetry; apply round_0; auto with typeclass_instances).
      destruct (Req_b 0 0) eqn:V; [|apply Req_b_false in V; lra]. replace (0 * t) with 0 by ring. rewrite V.
      replace (ceil 0) with 0%Z; [reflexivity|]. destruct (ceil_bound 0) as [G1 G2].
      assert (-1 < ceil 0 < 1)%Z by (split; apply lt_IZR; lra). lia.
    - pose proof (round_quotient_zero (b + c - a) c Q C ltac:(lia)) as NZ. apply Req_b_false in NZ. rewrite NZ.
      now rewrite round_quotient by lia. }
  rewrite CNT. apply map_ext_in. intros k Hk. apply in_seq in Hk as [_ Hk]. cbn [plus] in Hk.
  apply ceil_index in Hk.
  assert (KR : INR k < IZR (b + c - a) / IZR c).
  { replace (IZR (b + c - a) / IZR c) with ((IZR b * t + IZR c * t - IZR a * t) / (IZR c * t)); auto.
    rewrite minus_IZR, plus_IZR. field. lra. }
  assert (KC : (Z.of_nat k * Z.abs c <= Z.abs (b + c - a))%Z).
  { apply le_IZR. rewrite mult_IZR, !abs_IZR, <- INR_IZR_INZ.
    assert (CA : 0 < Rabs (IZR c)) by (apply Rabs_pos_lt; auto).
    assert (Rabs (IZR (b + c - a)) = Rabs (IZR (b + c - a) / IZR c) * Rabs (IZR c)) as -> by (rewrite <- Rabs_mult; f_equal; now field).
    apply Rmult_le_compat_r; [lra|]. pose proof (Rle_abs (IZR (b + c - a) / IZR c)). lra. }
  assert (KC2 : (Z.abs (Z.of_nat k * c) <= Z.abs (b + c - a))%Z) by lia.
  unfold point. destruct k as [|[|k]].
  - cbn [point_f INR]. ring.
  - cbn [point_f INR]. replace (IZR a * t + IZR c * t) with (IZR (a + c) * t) by (rewrite plus_IZR; ring).
    rewrite EXP by lia. rewrite plus_IZR. ring.
  - cbn [point_f]. set (n := S (S k)) in *.
    replace (IZR a * t + IZR c * t) with (IZR (a + c) * t) by (rewrite plus_IZR; ring). rewrite EXP by lia.
    replace (IZR (a + c) * t - IZR a * t) with (IZR c * t) by (rewrite plus_IZR; ring). rewrite EXP by lia.
    replace (INR n * (IZR c * t)) with (IZR (Z.of_nat n * c) * t) by (rewrite mult_IZR, INR_IZR_INZ; ring). rewrite EXP by lia.
    replace (IZR a * t + IZR (Z.of_nat n * c) * t) with (IZR (a + Z.of_nat n * c) * t) by (rewrite plus_IZR; ring).
    rewrite EXP by lia. rewrite plus_IZR. ring.
Qed.

(** ** Concrete ranges *)
Lemma rnd_value x m e :
  (2 ^ 52 < m < 2 ^ 53)%Z -> (-1074 <= e)%Z -> Rabs (x - IZR m * bpow radix2 e) < / 2 * bpow radix2 e ->
  rnd x = IZR m * bpow radix2 e.
Proof.
  intros M E D. set (t := bpow radix2 e) in *. assert (T : 0 < t) by apply bpow_gt_0.
  assert (M1 : IZR (2 ^ 52) + 1 <= IZR m) by (rewrite <- plus_IZR; apply IZR_le; lia).
  assert (M2 : IZR m + 1 <= IZR (2 ^ 53)) by (rewrite <- plus_IZR; apply IZR_le; lia).
  apply Rabs_def2 in D as [D1 D2].
  assert (L : IZR (2 ^ 52) * t <= x) by nra. assert (U : x < IZR (2 ^ 53) * t) by nra.
  assert (MG : mag radix2 x = (e + 53)%Z :> Z).
  { apply mag_unique_pos. replace (e + 53 - 1)%Z with (52 + e)%Z by lia. rewrite (Z.add_comm e 53), !bpow_plus.
    fold t. rewrite <- !(IZR_Zpower radix2) by lia. cbn in *. lra. }
  unfold rnd, round, F2R, scaled_mantissa, cexp. cbn [Fnum Fexp]. rewrite MG.
  replace (FLT_exp (-1074) 53 (e + 53)) with e by (unfold FLT_exp; lia). fold t.
  rewrite bpow_opp. fold t. rewrite (Znearest_imp _ _ m); auto.
  replace (x * / t - IZR m) with ((x - IZR m * t) * / t) by (field; lra).
  rewrite Rabs_mult, (Rabs_pos_eq (/ t)) by (left; now apply Rinv_0_lt_compat).
  apply Rmult_lt_reg_r with t; auto. rewrite Rmult_assoc, Rinv_l, Rmult_1_r by lra. apply Rabs_def1; lra.
Qed.
Lemma b_neg n : bpow radix2 (Z.neg n) = / IZR (Z.pow_pos 2 n).
Proof. reflexivity. Qed.
Ltac numeric := rewrite ?b_neg; match goal with |- context [Z.pow_pos 2 ?n] => idtac end;
  repeat match goal with |- context [Z.pow_pos 2 ?n] => let v := eval vm_compute in (Z.pow_pos 2 n) in change (Z.pow_pos 2 n) with v end.
Lemma typed_298_15 : rnd (29815 / 100) = IZR 5245110269142630 * bpow radix2 (-44).
Proof. apply rnd_value; [lia|lia|]. numeric. apply Rabs_def1; lra. Qed.
Lemma typed_298_25 : rnd (29825 / 100) = IZR 5246869487747072 * bpow radix2 (-44).
Proof. apply rnd_value; [lia|lia|]. numeric. apply Rabs_def1; lra. Qed.
Lemma typed_0_1 : rnd (1 / 10) = IZR 7205759403792794 * bpow radix2 (-56).
Proof. apply rnd_value; [lia|lia|]. numeric. apply Rabs_def1; lra. Qed.

(** A single temperature asked for with a step of 0.1 (298.15 298.15 0.1 on the
    command line) is computed at two temperatures, the second one past max. *)
Theorem C76_extra_point_refuted :
  set_range_f (rnd (29815 / 100), rnd (29815 / 100), rnd (1 / 10)) = Some [rnd (29815 / 100); rnd (29825 / 100)] /\
  set_range (29815 / 100, 29815 / 100, 1 / 10) = Some [29815 / 100].
Proof.
  split.
  - set (lo := rnd (29815 / 100)). set (st := rnd (1 / 10)).
    assert (LO : lo = IZR 5245110269142630 * bpow radix2 (-44)) by apply typed_298_15.
    assert (ST : st = IZR 7205759403792794 * bpow radix2 (-56)) by apply typed_0_1.
    assert (SUM : rnd (lo + st) = IZR 5246869487747072 * bpow radix2 (-44)).
    { rewrite LO, ST. apply rnd_value; [lia|lia|]. numeric. apply Rabs_def1; lra. }
    unfold set_range_f, arange_f. assert (S0 : st <> 0) by (rewrite ST; numeric; lra). apply Req_b_false in S0. rewrite S0.
    f_equal. assert (CNT : count_f lo (rnd (lo + st)) st = 2%nat).
    { unfold count_f. rewrite SUM. assert (D : rnd (IZR 5246869487747072 * bpow radix2 (-44) - lo) = IZR 1759218604442 * bpow radix2 (-44)).
      { rewrite LO. replace (_ - _) with (IZR 1759218604442 * bpow radix2 (-44)) by (numeric; lra). apply rnd_double, double_scaled; lia. }
      rewrite D. assert (Q : rnd (IZR 1759218604442 * bpow radix2 (-44) / st) = IZR 4503599627371520 * bpow radix2 (-52)).
      { rewrite ST. apply rnd_value; [lia|lia|]. numeric. apply Rabs_def1; lra. }
      rewrite Q. assert (V : IZR 4503599627371520 * bpow radix2 (-52) <> 0) by (numeric; lra). apply Req_b_false in V. rewrite V.
      destruct (ceil_bound (IZR 4503599627371520 * bpow radix2 (-52))) as [A B].
      assert (A' : 1 < IZR 4503599627371520 * bpow radix2 (-52) < 2 - 1/2) by (numeric; lra).
      assert (1 < ceil (IZR 4503599627371520 * bpow radix2 (-52)) < 3)%Z by (split; apply lt_IZR; lra).
      replace (ceil (IZR 4503599627371520 * bpow radix2 (-52))) with 2%Z by lia. reflexivity. }
    rewrite CNT. cbn [seq map point_f]. rewrite SUM. now rewrite typed_298_25.
  - rewrite set_range_some by lra. replace ((29815 / 100 + 1 / 10 - 29815 / 100) / (1 / 10)) with 1 by field.
    destruct (ceil_bound 1) as [A B]. assert (0 < ceil 1 < 2)%Z by (split; apply lt_IZR; lra).
    replace (ceil 1) with 1%Z by lia. change (Z.to_nat 1) with 1%nat. cbn [seq map]. unfold point. change (INR 0) with 0. rewrite Rmult_0_l, Rplus_0_r. reflexivity.
Qed.

(** The default temperature range, 298.15 298.15 1, is one point. *)
Example default_range : set_range_f (rnd (29815 / 100), rnd (29815 / 100), 1) = Some [rnd (29815 / 100)].
Proof.
  rewrite typed_298_15. replace 1 with (IZR 17592186044416 * bpow radix2 (-44)) by (numeric; lra).
  assert (S0 : IZR 17592186044416 * bpow radix2 (-44) <> 0) by (numeric; lra).
  unfold set_range_f, arange_f. pose proof S0 as S1. apply Req_b_false in S1. rewrite S1. f_equal.
  assert (CNT : count_f (IZR 5245110269142630 * bpow radix2 (-44)) (rnd (IZR 5245110269142630 * bpow radix2 (-44) + IZR 17592186044416 * bpow radix2 (-44)))
    (IZR 17592186044416 * bpow radix2 (-44)) = 1%nat).
  { unfold count_f. rewrite <- Rmult_plus_distr_r, <- plus_IZR. rewrite (rnd_double (IZR (_ + _) * _)) by (apply double_scaled; lia).
    rewrite <- Rmult_minus_distr_r, <- minus_IZR. rewrite (rnd_double (IZR (_ - _) * _)) by (apply double_scaled; lia).
    replace (IZR _ * _ / _) with (IZR 1 * bpow radix2 0) by (numeric; cbn; lra).
    rewrite rnd_double by (apply double_scaled; lia). cbn [bpow]. rewrite Rmult_1_r.
    destruct (Req_b 1 0) eqn:V; [apply Req_b_true in V; lra|].
    destruct (ceil_bound 1) as [A B]. assert (0 < ceil 1 < 2)%Z by (split; apply lt_IZR; lra).
    replace (ceil 1) with 1%Z by lia. reflexivity. }
  rewrite CNT. reflexivity.
Qed.
(** 0 1000 10: exactly the 101 temperatures 0, 10, ..., 1000. *)
Example whole_degrees : exists l, set_range_f (0, 1000, 10) = Some l /\ List.length l = 101%nat /\ nth 100 l 0 = 1000.
Proof.
  pose proof (C76_exact 0 1000 10 0 ltac:(lia) ltac:(lia) ltac:(lia)) as E. cbv zeta in E. cbn [bpow] in E. rewrite !Rmult_1_r in E.
  destruct (set_range (0, 1000, 10)) as [l|] eqn:S0.
  - exists l. split; [exact E|]. destruct (C43_whole_range 0 1000 10 100 l) as (A & _ & B & _); auto; try lra.
    unfold point. rewrite INR_IZR_INZ. cbn. lra.
  - apply C43_zero_step in S0. lra.
Qed.
(** 0 10 0.1 with the doubles nearest to the decimals meets C76_count and C76_whole_range' conditions on the slack. *)
Example tenth_slack : slack 0 10 (rnd (1 / 10)) < rnd (1 / 10) /\ double (rnd (1 / 10)) /\ 0 < rnd (1 / 10).
Proof.
  split; [|split; [apply double_rnd|rewrite typed_0_1; numeric; lra]].
  unfold slack. rewrite Rabs_R0, (Rabs_pos_eq 10), typed_0_1 by lra. numeric. lra.
Qed.
(** 298.15 1000 10 is clear of the slack: the count is the mathematical one. *)
Example clear_range k :
  slack (rnd (29815 / 100)) 1000 10 < Rabs (point (rnd (29815 / 100)) 10 k - (1000 + 10)).
Proof.
  rewrite typed_298_15. unfold slack, point. set (a := IZR 5245110269142630 * bpow radix2 (-44)).
  assert (A : 298.149 < a < 298.151) by (unfold a; numeric; lra).
  rewrite !Rabs_pos_eq by lra.
  destruct (Nat.le_gt_cases k 71) as [H|H].
  - assert (INR k <= 71) by (change 71 with (INR 71) || (replace 71 with (INR 71) by (rewrite INR_IZR_INZ; reflexivity)); now apply le_INR).
    rewrite Rabs_left1; lra.
  - assert (72 <= INR k) by (replace 72 with (INR 72) by (rewrite INR_IZR_INZ; reflexivity); now apply le_INR).
    rewrite Rabs_pos_eq; lra.
Qed.

Print Assumptions C76_zero_step.
Print Assumptions C76_count.
Print Assumptions C76_none_missing.
Print Assumptions C76_whole_range.
Print Assumptions C76_clear_count.
Print Assumptions C76_points.
Print Assumptions C76_exact.
Print Assumptions C76_extra_point_refuted.
