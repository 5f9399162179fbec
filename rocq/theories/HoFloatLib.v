(** A correctly rounded C library, and the oscillator functions outside the
    regular range (behind C83). *)
From Coq Require Import Reals List ZArith Lia Lra Psatz Bool Arith.
From Flocq Require Import Core.
From Verif Require Import StatMechModel StatMechProofs GridFloatModel GridFloatProofs HoFloatModel HoFloatSpec HoFloatProofs HoFloatMore.
Import ListNotations.
Open Scope R_scope.
#[local] Instance prec_53 : Prec_gt_0 53 := eq_refl.
#[local] Instance valid_fexp : Valid_exp fexp := FLT_exp_valid (-1074) 53.

Definition rounded_libm : libm :=
  {| c_exp := fun x => result (exp x); c_expm1 := fun x => result (expm1 x); c_log := fun x => result (ln x);
     c_square := fun x => result (x ^ 2); milli := rnd (/ 1000) |}.

Lemma rnd_monotone a b : a <= b -> rnd a <= rnd b.
Proof. intros H. apply round_le; [exact (@FLT_exp_valid (-1074) 53 eq_refl)|apply valid_rnd_N|exact H]. Qed.
Lemma rounded_good g (D : R -> Prop) :
  (forall x, double x -> D x -> - b2 1000 <= g x) -> good (fun x => result (g x)) g D.
Proof.
  intros L x X XR Dx. specialize (L x X Dx). pose proof (rnd_err (g x)) as E. pose proof u_pos as U0. pose proof u_small as US.
  assert (T75 : b2 (-1075) <= tiny). { unfold tiny. rewrite (b2_split 1 (-1075) (-1074)), b2_1 by lia. pose proof (b2_pos (-1075)). lra. }
  assert (UA : 0 <= u * Rabs (g x)) by (apply Rmult_le_pos; [lra|apply Rabs_pos]).
  unfold result, fit, Rlt_b. destruct (Rlt_dec (Rabs (rnd (g x))) (b2 1024)) as [F|F].
  - left. exists (rnd (g x)). split; [reflexivity|]. split; [apply double_rnd|]. split; [exact F|]. lra.
  - apply Rnot_lt_le in F. right. assert (B1000 : b2 1000 <= / 4 * b2 1023) by (change (/ 4) with (b2 (-2)); bp). pose proof (b2_pos 1000) as P1.
    assert (B75 : b2 (-1075) <= b2 1000) by bp. rewrite (b2_split 1 1023 1024), b2_1 in F by lia.
    assert (RB : Rabs (rnd (g x)) <= Rabs (g x) + (u * Rabs (g x) + b2 (-1075))).
    { replace (rnd (g x)) with (g x + (rnd (g x) - g x)) by ring. eapply Rle_trans; [apply Rabs_triang|]. lra. }
    assert (UB : u * Rabs (g x) <= / 4 * Rabs (g x)) by (apply Rmult_le_compat_r; [apply Rabs_pos|lra]).
    assert (G : b2 1023 <= Rabs (g x)) by lra.
    assert (GP : b2 1023 <= g x) by (destruct (Rle_or_lt 0 (g x)); [rewrite Rabs_pos_eq in G by lra; lra|rewrite Rabs_left in G by lra; lra]).
    split; [|exact GP]. destruct (Rlt_dec (rnd (g x)) 0) as [N|_]; [|reflexivity]. assert (rnd 0 <= rnd (g x)) by (apply rnd_monotone; lra). rewrite rnd_0 in *. lra.
Qed.
Lemma rounded_accurate : accurate rounded_libm.
Proof.
  assert (B1 : 1 <= b2 1000) by (rewrite <- b2_0; bp). split; cbn [rounded_libm c_exp c_expm1 c_log c_square milli].
  - apply rounded_good. intros x _ _. pose proof (exp_pos x). lra.
  - apply rounded_good. intros x _ _. pose proof (exp_pos x). unfold expm1. lra.
  - apply rounded_good. intros x X D. apply Rle_trans with (-1075).
    + assert (1075 <= b2 1000) by (apply Rle_trans with (b2 11); [change (b2 11) with 2048; lra|bp]). lra.
    + assert (Q : exp (- 1075) <= x).
      { apply Rle_trans with (b2 (-1074)).
        - apply Rle_trans with (b2 (- Z.of_nat 1075)); [apply exp_neg_big; rewrite INR_IZR_INZ; right; reflexivity|apply bpow_le; lia].
        - pose proof (double_min x X ltac:(lra)) as Q. now rewrite Rabs_pos_eq in Q by lra. }
      apply Rnot_lt_le. intros N. assert (exp (ln x) < exp (- 1075)) by (apply exp_increasing; exact N). rewrite exp_ln in H by exact D. lra.
  - apply rounded_good. intros x _ _. pose proof (pow2_ge_0 x). lra.
  - apply near_rnd. rewrite Rabs_pos_eq by lra. apply Rle_trans with (b2 (-10)); [bp|]. change (b2 (-10)) with (/ 1024). lra.
Qed.

(** CODATA 2018, as scipy.constants gives them. *)
Definition si : phys := {| hpl := rnd (662607015 / 10 ^ 42); KB := rnd (1380649 / 10 ^ 29); NA := rnd (602214076 * 10 ^ 15) |}.
Lemma rnd_bounds x lo hi : double lo -> double hi -> lo <= x <= hi -> lo <= rnd x <= hi.
Proof.
  intros L Hh [A B]. split.
  - rewrite <- (round_generic radix2 fexp ZnearestE lo L). apply rnd_monotone, A.
  - rewrite <- (round_generic radix2 fexp ZnearestE hi Hh). apply rnd_monotone, B.
Qed.
Lemma double_b2 e : (-1074 <= e)%Z -> double (b2 e).
Proof. intros E. apply generic_format_FLT_bpow; [reflexivity|exact E]. Qed.
Lemma si_sized : codata_sized si.
Proof.
  unfold codata_sized, si. cbn [hpl KB NA].
  split; [|split]; (apply rnd_bounds; [apply double_b2; lia|apply double_b2; lia|]).
  - change (-111)%Z with (- (111))%Z. change (-110)%Z with (- (110))%Z. rewrite <- !b2_inv. change (b2 111) with 2596148429267413814265248164610048. change (b2 110) with 1298074214633706907132624082305024. lra.
  - change (-76)%Z with (- (76))%Z. change (-75)%Z with (- (75))%Z. rewrite <- !b2_inv. change (b2 76) with 75557863725914323419136. change (b2 75) with 37778931862957161709568. lra.
  - change (b2 78) with 302231454903657293676544. change (b2 79) with 604462909807314587353088. lra.
Qed.

(** * A quantum negligible against the thermal energy *)
Lemma rnd_below_1 z : 1 - b2 (-55) <= z <= 1 -> rnd z = 1.
Proof.
  intros Z. assert (D1 : double 1) by (rewrite <- b2_0; apply double_b2; lia).
  pose proof (double_rnd z) as DR. destruct (round_N_pt radix2 fexp (fun n => negb (Z.even n)) z) as [_ NB].
  assert (N1 : Rabs (rnd z - z) <= Rabs (1 - z)) by (apply NB; exact D1). rewrite (Rabs_pos_eq (1 - z)) in N1 by lra.
  assert (LE : rnd z <= 1) by (rewrite <- (round_generic radix2 fexp ZnearestE 1 D1); apply rnd_monotone; lra).
  destruct (Rle_lt_or_eq_dec _ _ LE) as [L|E]; [exfalso|exact E].
  assert (PR : rnd z <= pred radix2 fexp 1) by (apply pred_ge_gt; [exact (@FLT_exp_valid (-1074) 53 eq_refl)|exact DR|exact D1|exact L]).
  assert (PB : pred radix2 fexp 1 = 1 - b2 (-53)).
  { rewrite <- b2_0 at 1. rewrite pred_bpow by exact (@FLT_exp_valid (-1074) 53 eq_refl). rewrite b2_0. reflexivity. }
  rewrite PB in PR. rewrite Rabs_left1 in N1 by (rewrite (b2_split 2 (-55) (-53)) in PR by lia; change (b2 2) with 4 in PR; pose proof (b2_pos (-55)); lra).
  rewrite (b2_split 2 (-55) (-53)) in PR by lia. change (b2 2) with 4 in PR. pose proof (b2_pos (-55)). lra.
Qed.
Section Negligible.
Variable P : phys.
Hypothesis PH : codata_sized P.
Variables T w : R.
Hypothesis BX : box T w.
Hypothesis SM : xi P T w <= b2 (-56).
Notation m := rounded_libm.
Notation y := (rnd (rnd (hpl P * w) / rnd (KB P * T))).
Lemma log_infinite : f_log m (fsub (Fin 1) (f_exp m (fneg (Fin y)))) = Inf true.
Proof.
  pose proof (y_pos P PH T w BX) as Y0. destruct (y_bounds P PH T w BX) as [_ YU]. change (hpl P * w / (KB P * T)) with (xi P T w) in YU.
  assert (Y1 : y <= b2 (-55)) by (rewrite (b2_split 1 (-56) (-55)), b2_1 by lia; lra).
  assert (E : rnd (exp (- y)) = 1).
  { apply rnd_below_1. split; [pose proof (exp_ineq1_le (- y)); lra|]. rewrite <- exp_0. apply exp_monotone. lra. }
  cbn [fneg f_exp rounded_libm c_exp]. unfold result. rewrite E. unfold fit, Rlt_b. rewrite Rabs_R1.
  destruct (Rlt_dec 1 (b2 1024)) as [_|N]; [|exfalso; apply N; rewrite <- b2_0; apply bpow_lt; lia].
  unfold fsub. cbn [fneg]. rewrite add_fin by (rewrite Rplus_opp_r, Rabs_R0; left; apply b2_pos). rewrite Rplus_opp_r, rnd_0. cbn [f_log]. now rewrite zero_T.
Qed.
Lemma guards : Rle_b w 0 = false /\ Req_b T 0 = false.
Proof. split; [exact (w_guard T w BX)|exact (T_guard T w BX)]. Qed.
Lemma not_zero a : 0 < a -> Req_b a 0 = false.
Proof. intros H. unfold Req_b. destruct (Req_EM_T a 0); [lra|reflexivity]. Qed.
Lemma not_negative a : 0 < a -> Rlt_b a 0 = false.
Proof. intros H. unfold Rlt_b. destruct (Rlt_dec a 0); [lra|reflexivity]. Qed.
Lemma F_infinite : ho_F_f m P T w = Inf true.
Proof.
  unfold ho_F_f. destruct guards as [-> ->]. rewrite (hw_fin P PH T w BX), (kT_fin P PH T w BX), (y_fin P PH T w BX). cbn [bindf unraisable]. rewrite log_infinite.
  pose proof (kT'_pos P PH T w BX) as KP. cbn [fmul]. rewrite (not_zero _ KP), (not_negative _ KP). cbn [xorb].
  change (fmul (Fin (1 / 2)) (Fin (rnd (hpl P * w)))) with (result (1 / 2 * rnd (hpl P * w))).
  assert (HF : exists h, result (1 / 2 * rnd (hpl P * w)) = Fin h).
  { eexists. apply result_fin. pose proof (hw'_bounds P PH T w BX). pose proof (hw_bounds P PH T w BX). pose proof (hw_pos P PH T w BX). rewrite Rabs_pos_eq by lra.
    assert (b2 (-10) <= b2 1000) by bp. lra. }
  destruct HF as (h & ->). cbn [fadd]. rewrite (mn_fin m rounded_accurate P PH).
  pose proof (mn_bounds m rounded_accurate P PH) as MB. pose proof (M0_pos P PH). cbn [fmul]. rewrite not_zero, not_negative by lra. reflexivity.
Qed.
Lemma S_infinite : ho_S_f m P T w = Inf false.
Proof.
  unfold ho_S_f. destruct guards as [-> ->]. cbn [orb]. rewrite (hw_fin P PH T w BX), (kT_fin P PH T w BX), (y_fin P PH T w BX). cbn [bindf]. rewrite log_infinite.
  pose proof (y_pos P PH T w BX) as Y0. destruct (y_bounds P PH T w BX) as [YL YU]. change (hpl P * w / (KB P * T)) with (xi P T w) in YL, YU.
  pose proof (x_weak_lower P PH T w BX) as XL. change (hpl P * w / (KB P * T)) with (xi P T w) in XL.
  assert (YL2 : b2 (-237) <= y) by (rewrite (b2_split 1 (-237) (-236)), b2_1 in XL by lia; lra).
  assert (Y1 : y <= b2 (-55)) by (rewrite (b2_split 1 (-56) (-55)), b2_1 by lia; lra).
  assert (EM : y <= expm1 y <= 2 * y).
  { pose proof (expm1_pos _ Y0). split; [lra|]. assert (b2 (-55) <= / 2) by (change (/ 2) with (b2 (-1)); bp). pose proof (exp_small y) as Q. rewrite (Rabs_pos_eq y) in Q by lra. specialize (Q ltac:(lra)).
    pose proof (Rle_abs (exp y - 1)). unfold expm1. lra. }
  destruct (good_near _ _ _ y (expm1_good m rounded_accurate) (y_double P T w) (y_range P PH T w BX) I) as (e & E & _ & NE).
  { apply Rle_lt_trans with (b2 1 * b2 (-55)); [rewrite b2_1; lra|]. rewrite <- bpow_plus. apply bpow_lt. lia. }
  { rewrite Rabs_pos_eq by lra. apply Rle_trans with (b2 (-237)); [bp|lra]. }
  cbn [f_expm1]. rewrite E. destruct (near_between _ _ _ NE ltac:(lra)) as [EL EU]; [lra|].
  assert (E0 : 0 < e) by lra. assert (EI : 0 < 1 / e <= b2 238).
  { unfold Rdiv. rewrite Rmult_1_l. split; [now apply Rinv_0_lt_compat|]. change 238%Z with (- (-238))%Z. rewrite <- b2_inv. apply Rinv_le; [apply b2_pos|].
    rewrite (b2_split 1 (-238) (-237)), b2_1 in YL2 by lia. lra. }
  rewrite div_fin; [|lra|rewrite Rabs_pos_eq by lra; apply Rle_trans with (1 := proj2 EI); bp]. cbn [bindf unraisable].
  pose proof (rnd_abs (1 / e)) as RA. rewrite (Rabs_pos_eq (1 / e)) in RA by lra. assert (B75 : b2 (-1075) <= b2 238) by bp.
  rewrite mul_fin.
  - unfold fsub. cbn [fneg negb fadd]. rewrite (nk_fin P PH). pose proof (nk_bounds P PH). pose proof (NK_pos P PH). cbn [fmul]. rewrite not_zero, not_negative by lra. reflexivity.
  - rewrite Rabs_mult, (Rabs_pos_eq y) by lra. apply Rle_trans with (b2 2 * b2 238 * b2 (-55)); [|bp]. apply Rmult_le_compat; try lra; [apply Rabs_pos|]. change (b2 2) with 4. lra.
Qed.
End Negligible.

(** * A temperature whose product with Boltzmann's constant underflows *)
Lemma rnd_underflow z : 0 < z <= b2 (-1075) -> rnd z = 0.
Proof.
  intros Z. assert (D0 : double 0) by apply generic_format_0. destruct (round_N_pt radix2 fexp (fun n => negb (Z.even n)) z) as [DR NB]. fold (rnd z) in *.
  assert (N1 : Rabs (rnd z - z) <= Rabs (0 - z)) by (apply NB; exact D0). rewrite Rminus_0_l, Rabs_Ropp, (Rabs_pos_eq z) in N1 by lra.
  assert (P0 : 0 <= rnd z) by (rewrite <- rnd_0 at 1; apply rnd_monotone; lra).
  destruct (Req_dec (rnd z) 0) as [E|NE]; [exact E|exfalso].
  pose proof (double_min _ DR NE) as Q. rewrite (Rabs_pos_eq (rnd z)) in Q by exact P0. rewrite (b2_split 1 (-1075) (-1074)), b2_1 in Q by lia.
  pose proof (Rle_abs (rnd z - z)). assert (E2 : rnd z = b2 (-1074)) by (rewrite (b2_split 1 (-1075) (-1074)), b2_1 by lia; lra).
  assert (E3 : z = b2 (-1075)) by lra. clear - E2 E3. rewrite E3 in E2. revert E2. unfold rnd, round, scaled_mantissa, cexp.
  assert (MG : mag radix2 (b2 (-1075)) = (-1074)%Z :> Z) by (rewrite mag_bpow; reflexivity). rewrite MG. change (FLT_exp (-1074) 53 (-1074)) with (-1074)%Z. change (- (-1074))%Z with 1074%Z.
  rewrite <- bpow_plus. change (-1075 + 1074)%Z with (-1)%Z.
  assert (ZN : ZnearestE (b2 (-1)) = 0%Z).
  { change (b2 (-1)) with (/ 2). unfold ZnearestE, Znearest. assert (F0 : Zfloor (/ 2) = 0%Z) by (apply Zfloor_imp; split; cbn; lra). rewrite F0.
    rewrite Rcompare_Eq by (cbn; lra). reflexivity. }
  rewrite ZN. unfold F2R. cbn [Fnum Fexp]. pose proof (b2_pos (-1074)). lra.
Qed.
