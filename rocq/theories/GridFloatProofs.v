(** Rounding lemmas behind C76. *)
From Coq Require Import Reals List ZArith Lia Lra Psatz.
From Flocq Require Import Core Relative.
From Verif Require Import StatMechModel ThermoProps GridModel GridProps GridFloatModel.
Import ListNotations.
Open Scope R_scope.

Notation fexp := (FLT_exp (-1074) 53).
#[local] Instance prec_53 : Prec_gt_0 53 := eq_refl.
#[local] Instance valid_fexp : Valid_exp fexp := FLT_exp_valid (-1074) 53.
#[local] Instance mono_fexp : Monotone_exp fexp := FLT_exp_monotone (-1074) 53.

(** Unit roundoff. *)
Definition u : R := bpow radix2 (-53).
Lemma u_value : u = / 9007199254740992.
Proof. unfold u. now rewrite bpow_opp || (cbn; lra). Qed.
Lemma u_pos : 0 < u.
Proof. apply bpow_gt_0. Qed.

(** Integer multiples of the least positive double. *)
Definition grid_multiple (x : R) : Prop := exists m : Z, x = IZR m * bpow radix2 (-1074).

Lemma double_multiple x : double x -> grid_multiple x.
Proof.
  intros H. apply FLT_format_generic in H; [|typeclasses eauto]. destruct H as [[m e] E1 E2 E3]. cbn in *.
  exists (m * 2 ^ (e + 1074))%Z. rewrite E1. unfold F2R. cbn [Fnum Fexp].
  rewrite mult_IZR. rewrite (IZR_Zpower radix2) by lia. rewrite Rmult_assoc, <- bpow_plus. do 2 f_equal. lia.
Qed.
Lemma multiple_plus x y : grid_multiple x -> grid_multiple y -> grid_multiple (x + y).
Proof. intros [a ->] [b ->]. exists (a + b)%Z. rewrite plus_IZR. ring. Qed.
Lemma multiple_opp x : grid_multiple x -> grid_multiple (- x).
Proof. intros [a ->]. exists (- a)%Z. rewrite opp_IZR. ring. Qed.
Lemma multiple_minus x y : grid_multiple x -> grid_multiple y -> grid_multiple (x - y).
Proof. intros. apply multiple_plus; auto. now apply multiple_opp. Qed.
Lemma multiple_times k x : grid_multiple x -> grid_multiple (INR k * x).
Proof. intros [a ->]. exists (Z.of_nat k * a)%Z. rewrite mult_IZR, INR_IZR_INZ. ring. Qed.
Lemma double_rnd x : double (rnd x).
Proof. apply generic_format_round; auto with typeclass_instances. Qed.

(** Whole multiples of a power of two below 2^53 are doubles. *)
Lemma double_scaled a e : (Z.abs a < 2 ^ 53)%Z -> (-1074 <= e)%Z -> double (IZR a * bpow radix2 e).
Proof.
  intros A B. apply generic_format_FLT. exists (Float radix2 a e); cbn; auto.
Qed.
Lemma double_scaled_le a e : (Z.abs a <= 2 ^ 53)%Z -> (-1074 <= e)%Z -> double (IZR a * bpow radix2 e).
Proof.
  intros A B. destruct (Z.eq_dec (Z.abs a) (2 ^ 53)) as [E|E]; [|apply double_scaled; lia].
  replace (IZR a * bpow radix2 e) with (IZR (Z.sgn a) * bpow radix2 (e + 53)).
  - apply double_scaled; lia.
  - rewrite bpow_plus. rewrite <- (Z.abs_sgn a) at 2. rewrite E, mult_IZR, (IZR_Zpower radix2) by lia. ring.
Qed.
Lemma rnd_double x : double x -> rnd x = x.
Proof. intros. now apply round_generic; auto with typeclass_instances. Qed.
Lemma rnd_le x y : x <= y -> rnd x <= rnd y.
Proof. intros. apply round_le; auto with typeclass_instances. Qed.

(** No absolute error term for sums, differences and whole multiples. *)
Lemma rnd_relative x : grid_multiple x -> Rabs (rnd x - x) <= u * Rabs x.
Proof.
  intros [m E]. destruct (Rle_or_lt (bpow radix2 (-1074 + 53 - 1)) (Rabs x)) as [H|H].
  - unfold rnd. pose proof (relative_error_N_FLT radix2 (-1074) 53 ltac:(lia) (fun x => negb (Z.even x)) x H) as L.
    change (-53 + 1)%Z with (- (52))%Z in L. replace u with (/ 2 * bpow radix2 (-52)); [exact L|].
    unfold u. change (-53)%Z with (-1 + -52)%Z. rewrite bpow_plus. cbn; lra.
  - rewrite rnd_double.
    + replace (x - x) with 0 by ring. rewrite Rabs_R0. apply Rmult_le_pos; [left; apply u_pos|apply Rabs_pos].
    + subst x. apply double_scaled; [|lia]. rewrite Rabs_mult, (Rabs_pos_eq (bpow _ _)) in H by apply bpow_ge_0.
      change (-1074 + 53 - 1)%Z with (52 + -1074)%Z in H. rewrite bpow_plus in H.
      apply Rmult_lt_reg_r in H; [|apply bpow_gt_0]. rewrite <- abs_IZR in H.
      rewrite <- (IZR_Zpower radix2) in H by lia. apply lt_IZR in H. cbn in H. lia.
Qed.
(** Any operation. *)
Lemma rnd_error x : Rabs (rnd x - x) <= u * Rabs x + u ^ 2.
Proof.
  unfold rnd. destruct (error_N_FLT radix2 (-1074) 53 ltac:(lia) (fun x => negb (Z.even x)) x) as (e & h & He & Hh & _ & E).
  rewrite E. replace (x * (1 + e) + h - x) with (x * e + h) by ring.
  eapply Rle_trans; [apply Rabs_triang|]. rewrite Rabs_mult, Rmult_comm.
  apply Rplus_le_compat.
  - apply Rmult_le_compat_r; [apply Rabs_pos|]. eapply Rle_trans; [exact He|]. unfold u.
    replace (bpow radix2 (-53)) with (/ 2 * bpow radix2 (-53 + 1)) by (rewrite bpow_plus; cbn -[bpow]; rewrite bpow_1; cbn; lra).
    apply Rle_refl.
  - eapply Rle_trans; [exact Hh|].
    replace (u ^ 2) with (bpow radix2 (-106)) by (unfold u; replace (bpow radix2 (-53) ^ 2) with (bpow radix2 (-53) * bpow radix2 (-53)) by ring; now rewrite <- bpow_plus).
    assert (bpow radix2 (-1074) <= bpow radix2 (-106)) by (apply bpow_le; lia).
    pose proof (bpow_gt_0 radix2 (-1074)). lra.
Qed.
