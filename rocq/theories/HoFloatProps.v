(** C83: the harmonic functions in double precision. *)
From Coq Require Import Reals List ZArith Lia Lra Psatz Bool Arith.
From Flocq Require Import Core.
From Verif Require Import ParModel StatMechModel StatMechSpec StatMechProofs GridFloatModel GridFloatProofs HoFloatModel HoFloatSpec HoFloatProofs HoFloatMore HoFloatLib.
Import ListNotations.
Open Scope R_scope.

(** The zero-point energy has a relative error of at most 18 roundoffs. *)
Theorem C83_zero_point m P T w :
  accurate m -> codata_sized P -> b2 (-100) <= w <= b2 100 ->
  exists v, ho_zpe_f m P T w = Fin v /\ Rabs (v - ho_zpe P T w) <= 18 * u * Rabs (ho_zpe P T w).
Proof. intros M PH W. exact (zpe_mode m M P PH T w W). Qed.
(** No overflow, invalid operation or division by zero in the thermal energy,
    whatever the ratio of quantum and thermal energy. *)
Theorem C83_thermal m P T w :
  accurate m -> codata_sized P -> regular P T w ->
  exists v, ho_eth_f m P T w = Fin v /\
    Rabs (v - ho_eth P T w) <= 64 * u * (1 + xi P T w) * ho_eth P T w + b2 (-280) * quantum P w.
Proof. intros M PH. exact (eth_mode m M P PH T w). Qed.
Theorem C83_entropy m P T w :
  accurate m -> codata_sized P -> regular P T w ->
  exists v, ho_S_f m P T w = Fin v /\ Rabs (v - ho_S P T w) <= b2 (-45) * (gas P * (1 + / xi P T w)).
Proof. intros M PH. exact (S_mode m M P PH T w). Qed.
Theorem C83_free_energy m P T w :
  accurate m -> codata_sized P -> regular P T w ->
  exists v, ho_F_f m P T w = Fin v /\
    Rabs (v - ho_F P T w) <= b2 (-46) * (quantum P w + thermal P T * (1 + / xi P T w)).
Proof. intros M PH. exact (F_mode m M P PH T w). Qed.
(** exp(x) overflows from x = 710 on and pow(x/expm1(x), 2) underflows from
    about x = 375 on; the guard on the square keeps their product finite. *)
Theorem C83_heat_capacity m P T w :
  accurate m -> codata_sized P -> regular P T w ->
  exists v, ho_Cv_f m P T w = Fin v /\
    Rabs (v - ho_Cv P T w) <= 96 * u * (1 + xi P T w) * ho_Cv P T w + b2 (-140) * gas P.
Proof. intros M PH. exact (Cv_mode m M P PH T w). Qed.
(** At 0 K: exactly zero, and the zero-point energy for the free energy. *)
Theorem C83_at_zero m P w :
  accurate m -> codata_sized P -> b2 (-100) <= w <= b2 100 ->
  ho_eth_f m P 0 w = Fin 0 /\ ho_S_f m P 0 w = Fin 0 /\ ho_Cv_f m P 0 w = Fin 0 /\
  exists v, ho_F_f m P 0 w = Fin v /\ Rabs (v - ho_zpe P 0 w) <= 20 * u * Rabs (ho_zpe P 0 w).
Proof.
  intros M PH W. unfold ho_eth_f, ho_S_f, ho_Cv_f. rewrite zero_T, orb_true_r. do 3 (split; [reflexivity|]).
  destruct (F_zero m M P PH w W) as (v & F & B). exists v. split; [exact F|].
  replace (ho_zpe P 0 w) with (quantum P w / 2); [exact B|]. unfold ho_zpe. rewrite (guard_false w (proj1 W)). unfold quantum. lra.
Qed.

(** Every entry of the five tables is a finite number close to the exact sum.
    The bound is relative to the sum of the sizes of the modes. *)
Definition close (f : nat -> nat -> fp) (e : nat -> nat -> R) (size : R -> R -> R) (T : nat -> R) (b : bands) (w : nat -> R) (i n : nat) : Prop :=
  exists v, f i n = Fin v /\
    Rabs (v - e i n) <= INR (nb b * nf b) * (b2 (-39) * band_sum b w n (size (T i)) + b2 (-1072)).
Theorem C83_tables m P nt T b w i n :
  accurate m -> codata_sized P -> (i < nt)%nat -> (n < nv b)%nat -> INR (nb b * nf b) <= b2 50 ->
  (forall j, (j < nb b)%nat -> 0 <= w j <= b2 100) ->
  (forall j k, (j < nb b)%nat -> (k < nf b)%nat -> usable P (T i) (freq b j k n)) ->
  close (band_loop_f (ho_zpe_f m P) nt T b w) (zero_point_energy P nt T b w) (size_zpe P) T b w i n /\
  close (band_loop_f (ho_eth_f m P) nt T b w) (thermal_energy P nt T b w) (size_eth P) T b w i n /\
  close (band_loop_f (ho_S_f m P) nt T b w) (entropy P nt T b w) (size_S P) T b w i n /\
  close (band_loop_f (ho_F_f m P) nt T b w) (vibrational_free_energy P nt T b w) (size_F P) T b w i n /\
  close (band_loop_f (ho_Cv_f m P) nt T b w) (isochoric_heat_capacity P nt T b w) (size_Cv P) T b w i n.
Proof.
  intros M PH Hi Hn HN HW HU. unfold close, zero_point_energy, thermal_energy, entropy, vibrational_free_energy, isochoric_heat_capacity.
  repeat split; apply table_error; try assumption; intros j k J K; specialize (HU j k J K);
    [apply zpe_ok|apply eth_ok|apply S_ok|apply F_ok|apply Cv_ok]; assumption.
Qed.

(** Not: the free energy and the entropy of a real mode are finite. When the
    quantum is at most 2^-56 thermal energies, exp(-x) rounds to 1 and the
    logarithm of zero is taken. *)
Theorem C83_negligible_quantum_refuted P T w :
  codata_sized P -> box T w -> xi P T w <= b2 (-56) ->
  ho_F_f rounded_libm P T w = Inf true /\ ho_S_f rounded_libm P T w = Inf false.
Proof. intros PH BX SM. split; [exact (F_infinite P PH T w BX SM)|exact (S_infinite P PH T w BX SM)]. Qed.
(** Not: close to 0 K the free energy is close to the zero-point energy. When
    KB*T underflows, the division by zero is printed and 0 is returned. *)
Theorem C83_cold_refuted m P T w :
  codata_sized P -> b2 (-100) <= w <= b2 100 -> 0 < T -> KB P * T <= b2 (-1075) ->
  ho_F_f m P T w = Fin 0 /\ quantum P w / 4 <= ho_F P T w /\ 0 < quantum P w.
Proof.
  intros PH W T0 S. assert (BX : box w w) by (split; exact W). pose proof (hw_bounds P PH w w BX) as HB. pose proof (hw_pos P PH w w BX) as HP.
  assert (KP : 0 < KB P) by (destruct PH as (_ & KQ & _); pose proof (b2_pos (-76)); lra). assert (KT : 0 < KB P * T) by (now apply Rmult_lt_0_compat).
  pose proof (quantum_bounds P PH w W) as QB. split; [|split; [|lra]].
  - unfold ho_F_f. rewrite (guard_false w (proj1 W)). rewrite (hw_fin P PH w w BX). unfold Req_b at 1. destruct (Req_EM_T T 0) as [E|_]; [lra|].
    assert (U : fmul (fKB P) (Fin T) = Fin 0).
    { unfold fKB. rewrite mul_fin by (rewrite Rabs_pos_eq by lra; apply Rle_trans with (1 := S); bp). f_equal. apply rnd_underflow. lra. }
    rewrite U. cbn [fdiv]. now rewrite zero_T.
  - unfold ho_F. rewrite (guard_false w (proj1 W)). unfold Req_b. destruct (Req_EM_T T 0) as [E|_]; [lra|].
    set (x := hpl P * w / (KB P * T)). assert (X1 : 1 <= x).
    { apply Rmult_le_reg_r with (KB P * T); [lra|]. unfold x, Rdiv. rewrite Rmult_assoc, Rinv_l by lra. assert (b2 (-1075) <= b2 (-211)) by bp. lra. }
    assert (EX : exp (- x) <= / 2).
    { rewrite exp_Ropp. apply Rinv_le; [lra|]. pose proof (exp_ineq1_le x). lra. }
    assert (LN : -1 <= ln (1 - exp (- x))).
    { pose proof (exp_pos (- x)). apply Rnot_lt_le. intros N. apply exp_increasing in N. rewrite exp_ln in N by lra.
      assert (exp (-1) <= / 2) by (change (-1) with (- (1)); rewrite exp_Ropp; apply Rinv_le; [lra|]; pose proof (exp_ineq1_le 1); lra). lra. }
    assert (LN0 : KB P * T * -1 <= KB P * T * ln (1 - exp (- x))) by (apply Rmult_le_compat_l; lra).
    pose proof (M0_pos P PH) as MP. change (/ 1000 * NA P) with (M0 P). replace (quantum P w / 4) with (M0 P * (hpl P * w / 4)) by (unfold quantum, M0; field).
    apply Rmult_le_compat_l; [lra|]. assert (b2 (-1075) <= b2 (-213)) by bp. rewrite (b2_split 2 (-213) (-211)) in HB by lia. change (b2 2) with 4 in HB. lra.
Qed.

(** The constants of scipy, a correctly rounded library, 300 K and 10 THz. *)
Example C83_instance :
  accurate rounded_libm /\ codata_sized si /\ regular si 300 (10 ^ 13) /\ 3 / 2 <= xi si 300 (10 ^ 13) <= 7 / 4.
Proof.
  split; [apply rounded_accurate|]. split; [apply si_sized|].
  assert (HB : 66260 / 10 ^ 38 <= hpl si <= 66261 / 10 ^ 38).
  { unfold si. cbn [hpl]. pose proof (near_rnd (662607015 / 10 ^ 42)) as Q. unfold near in Q. rewrite (Rabs_pos_eq (662607015 / 10 ^ 42)) in Q by lra.
    assert (L : b2 (-1000) <= 662607015 / 10 ^ 42). { apply Rle_trans with (b2 (-111)); [bp|]. change (-111)%Z with (- (111))%Z. rewrite <- b2_inv. change (b2 111) with 2596148429267413814265248164610048. lra. }
    specialize (Q L). pose proof u_small. pose proof u_pos. assert (2 * u * (662607015 / 10 ^ 42) <= 2 * / 1000000000000000 * (662607015 / 10 ^ 42)) by (apply Rmult_le_compat_r; lra).
    pose proof (Rle_abs (rnd (662607015 / 10 ^ 42) - 662607015 / 10 ^ 42)). pose proof (Rle_abs (- (rnd (662607015 / 10 ^ 42) - 662607015 / 10 ^ 42))). rewrite Rabs_Ropp in *. lra. }
  assert (KB0 : 13806 / 10 ^ 27 <= KB si <= 13807 / 10 ^ 27).
  { unfold si. cbn [KB]. pose proof (near_rnd (1380649 / 10 ^ 29)) as Q. unfold near in Q. rewrite (Rabs_pos_eq (1380649 / 10 ^ 29)) in Q by lra.
    assert (L : b2 (-1000) <= 1380649 / 10 ^ 29). { apply Rle_trans with (b2 (-76)); [bp|]. change (-76)%Z with (- (76))%Z. rewrite <- b2_inv. change (b2 76) with 75557863725914323419136. lra. }
    specialize (Q L). pose proof u_small. pose proof u_pos. assert (2 * u * (1380649 / 10 ^ 29) <= 2 * / 1000000000000000 * (1380649 / 10 ^ 29)) by (apply Rmult_le_compat_r; lra).
    pose proof (Rle_abs (rnd (1380649 / 10 ^ 29) - 1380649 / 10 ^ 29)). pose proof (Rle_abs (- (rnd (1380649 / 10 ^ 29) - 1380649 / 10 ^ 29))). rewrite Rabs_Ropp in *. lra. }
  assert (X : 3 / 2 <= xi si 300 (10 ^ 13) <= 7 / 4).
  { assert (EQ : xi si 300 (10 ^ 13) * (KB si * 300) = hpl si * 10 ^ 13) by (unfold xi; field; lra).
    split; apply Rmult_le_reg_r with (KB si * 300); try lra; rewrite EQ; lra. }
  split; [|exact X]. split; [|apply Rle_trans with (b2 0); [bp|rewrite b2_0; lra]].
  assert (b2 (-100) <= b2 0) by bp. rewrite b2_0 in *. assert (b2 50 <= b2 100) by bp. change (b2 50) with 1125899906842624 in *. split; lra.
Qed.
(** Two q-points, three modes each (one imaginary), at 0 and 300 K. *)
Definition two_points : bands := {| nb := 2; nf := 3; nv := 1; freq := fun j k _ => match k with O => -(10 ^ 11) | _ => 10 ^ 13 end |}.
Example C83_tables_instance : forall i, (i < 2)%nat ->
  close (band_loop_f (ho_Cv_f rounded_libm si) 2 (fun i => INR i * 300) two_points (fun _ => 1 / 2)) (isochoric_heat_capacity si 2 (fun i => INR i * 300) two_points (fun _ => 1 / 2))
    (size_Cv si) (fun i => INR i * 300) two_points (fun _ => 1 / 2) i 0.
Proof.
  intros i Hi. destruct C83_instance as (A & B & RG & _).
  apply (C83_tables rounded_libm si 2 (fun i => INR i * 300) two_points (fun _ => 1 / 2) i 0); try assumption; cbn [nb nf nv two_points]; try lia.
  - cbn. apply Rle_trans with (b2 3); [change (b2 3) with 8; lra|bp].
  - intros j _. assert (b2 0 <= b2 100) by bp. rewrite b2_0 in *. lra.
  - intros j k _ _. unfold two_points. cbn [freq]. destruct k as [|k]; [left; lra|]. right. destruct i as [|[|i]]; [left; cbn [INR]; split; [lra|apply RG]|right; cbn [INR]; rewrite Rmult_1_l; exact RG|lia].
Qed.
(** 300 K and 2^-21 Hz: an acoustic mode that should be zero. *)
Example C83_negligible_instance : box 300 (b2 (-21)) /\ xi si 300 (b2 (-21)) <= b2 (-56).
Proof.
  assert (b2 (-100) <= b2 0) by bp. assert (b2 9 <= b2 100) by bp. rewrite b2_0 in *. change (b2 9) with 512 in *.
  split; [split; [lra|split; bp]|]. destruct si_sized as ((_ & HU) & (KL & _) & _). unfold xi.
  assert (KP : 0 < KB si) by (pose proof (b2_pos (-76)); lra). pose proof (b2_pos (-76)). pose proof (b2_pos (-21)). pose proof (b2_pos (-56)).
  apply Rmult_le_reg_r with (KB si * 300); [lra|]. unfold Rdiv. rewrite Rmult_assoc, Rinv_l, Rmult_1_r by lra.
  apply Rle_trans with (b2 (-110) * b2 (-21)); [apply Rmult_le_compat_r; lra|]. apply Rle_trans with (b2 (-56) * (b2 (-76) * b2 8)); [bp|]. change (b2 8) with 256.
  apply Rmult_le_compat_l; lra.
Qed.
Example C83_cold_instance : KB si * b2 (-1000) <= b2 (-1075).
Proof. destruct si_sized as (_ & (_ & KU) & _). apply Rle_trans with (b2 (-75) * b2 (-1000)); [apply Rmult_le_compat_r; [left; apply b2_pos|exact KU]|bp]. Qed.

Print Assumptions C83_zero_point.
Print Assumptions C83_thermal.
Print Assumptions C83_entropy.
Print Assumptions C83_free_energy.
Print Assumptions C83_heat_capacity.
Print Assumptions C83_at_zero.
Print Assumptions C83_tables.
Print Assumptions C83_negligible_quantum_refuted.
Print Assumptions C83_cold_refuted.
