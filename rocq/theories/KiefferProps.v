(** Acoustic contributions with a sine dispersion: C79. *)
From Coq Require Import Reals List Lra Lia Permutation.
From Coquelicot Require Import Coquelicot.
From Verif Require Import KiefferModel KiefferProofs.
From Verif Require StatMechModel StatMechProofs.
Import ListNotations.
Open Scope R_scope.

(** ** Specification *)
(** Heat capacity, free energy and energy of one oscillator of reduced frequency
    y = h nu / (k T), in units of k and k T. *)
Definition einstein (y : R) : R := y ^ 2 * exp y / (exp y - 1) ^ 2.
Definition free (y : R) : R := ln (1 - exp (- y)).
Definition planck (y : R) : R := y / (exp y - 1).
(** A branch: the wave vector, as a fraction t of the zone boundary, fills the
    sphere of radius 1 evenly (3 t^2 dt) and its frequency is
    xi * sin (pi/2 * t). Mean over the shell a < t < b. *)
Definition shell (g : R -> R) (xi a b : R) : R := RInt (fun t => 3 * t ^ 2 * g (xi * sin (PI / 2 * t))) a b.
(** The wave vector at which the frequency is f * xi. *)
Definition at_fraction (f : R) : R := 2 / PI * asin f.
Definition total (l : list R) : R := fold_right Rplus 0 l.
(** The integrator returns the integral, also when it is improper at its upper end. *)
Definition exact_quad (quad : (R -> R) -> R -> R -> R) : Prop :=
  forall f a b I, a < b -> integral_up_to f a b I -> quad f a b = I.

(** ** Elementary functions *)
Lemma exp_minus_1 y : 0 < y -> y <= exp y - 1.
Proof. intros H. pose proof (StatMechProofs.expm1_ge y). unfold StatMechModel.expm1 in H0. lra. Qed.
Lemma exp_upper y : exp y - 1 <= y * exp y.
Proof.
  pose proof (exp_ineq1_le (- y)). pose proof (exp_pos y). assert (exp y * exp (- y) = 1) by (rewrite <- exp_plus, Rplus_opp_r; apply exp_0). nra.
Qed.
Lemma einstein_bounds y : 0 < y -> exp (- y) <= einstein y <= 1.
Proof.
  intros H. pose proof (exp_minus_1 y H) as E. pose proof (exp_upper y) as U. pose proof (exp_pos y) as XP. unfold einstein.
  assert (0 < (exp y - 1) ^ 2) by (apply pow_lt; lra). split.
  - apply Rmult_le_reg_r with ((exp y - 1) ^ 2); [lra|]. unfold Rdiv. rewrite Rmult_assoc, Rinv_l by lra. rewrite Rmult_1_r.
    assert ((exp y - 1) ^ 2 <= (y * exp y) ^ 2) by (apply pow_incr; lra).
    apply Rle_trans with (exp (- y) * (y * exp y) ^ 2); [apply Rmult_le_compat_l; [apply Rlt_le, exp_pos|assumption]|].
    right. rewrite exp_Ropp. field. lra.
  - apply Rmult_le_reg_r with ((exp y - 1) ^ 2); [lra|]. unfold Rdiv. rewrite Rmult_assoc, Rinv_l by lra.
    pose proof (StatMechProofs.sinh_ge y ltac:(lra)) as S. unfold StatMechModel.expm1 in S.
    assert (Q : exp y = exp (y / 2) * exp (y / 2)) by (rewrite <- exp_plus; f_equal; lra).
    replace (y ^ 2 * exp y) with ((y * exp (y / 2)) ^ 2) by (rewrite Q; ring).
    rewrite Rmult_1_r, Rmult_1_l. apply pow_incr. split; [apply Rmult_le_pos; [lra|apply Rlt_le, exp_pos]|exact S].
Qed.
Lemma free_bounds y : 0 < y -> - / y <= free y < 0.
Proof.
  intros H. unfold free. pose proof (StatMechProofs.ln_neg y H). pose proof (StatMechProofs.ln_bound y H) as L. unfold StatMechModel.expm1 in L.
  split; [|assumption]. pose proof (exp_minus_1 y H). assert (/ (exp y - 1) <= / y) by (apply Rinv_le_contravar; lra). lra.
Qed.
Lemma planck_bounds y : 0 < y -> 0 <= planck y <= 1.
Proof.
  intros H. pose proof (exp_minus_1 y H). unfold planck. split; [apply Rmult_le_pos; [lra|left; apply Rinv_0_lt_compat; lra]|].
  apply Rmult_le_reg_r with (exp y - 1); [lra|]. unfold Rdiv. rewrite Rmult_assoc, Rinv_l by lra. lra.
Qed.
Lemma einstein_continuous y : 0 < y -> continuous einstein y.
Proof.
  intros H. apply (ex_derive_continuous einstein). unfold einstein. auto_derive. pose proof (exp_minus_1 y H).
  apply Rmult_integral_contrapositive. split; [lra|]. apply Rmult_integral_contrapositive. lra.
Qed.
Lemma free_continuous y : 0 < y -> continuous free y.
Proof. intros H. apply (ex_derive_continuous free). unfold free. auto_derive. pose proof (StatMechProofs.one_minus_exp y H). lra. Qed.
Lemma planck_continuous y : 0 < y -> continuous planck y.
Proof. intros H. apply (ex_derive_continuous planck). unfold planck. auto_derive. pose proof (exp_minus_1 y H). lra. Qed.

(** ** Shell means *)
Lemma shell_zone g xi a b : ex_RInt (on_zone g xi) a b -> RInt (on_zone g xi) a b * (3 * (2 / PI) ^ 3) = shell g xi a b.
Proof.
  intros E. pose proof PI_RGT_0. unfold shell. rewrite Rmult_comm.
  change (3 * (2 / PI) ^ 3 * RInt (on_zone g xi) a b) with (scal (3 * (2 / PI) ^ 3) (RInt (on_zone g xi) a b)).
  rewrite <- RInt_scal by exact E. apply RInt_ext. intros t _. change (3 * (2 / PI) ^ 3 * on_zone g xi t = 3 * t ^ 2 * g (xi * sin (PI / 2 * t)) :> R).
  unfold on_zone. field. lra.
Qed.
Lemma shell_ex g xi a b : 0 < xi -> 0 < a -> a <= b < 2 -> (forall x, 0 < x -> continuous g x) ->
  ex_RInt (fun t => 3 * t ^ 2 * g (xi * sin (PI / 2 * t))) a b.
Proof.
  intros X A B G. pose proof PI_RGT_0. apply (ex_RInt_ext (fun t => scal (3 * (2 / PI) ^ 3) (on_zone g xi t))).
  - intros t _. change (3 * (2 / PI) ^ 3 * on_zone g xi t = 3 * t ^ 2 * g (xi * sin (PI / 2 * t)) :> R). unfold on_zone. field. lra.
  - apply (ex_RInt_scal (on_zone g xi)). apply zone_ex; [lra|lra|lra|exact G].
Qed.
Lemma cube_integral m a b : is_RInt (fun t => 3 * t ^ 2 * m) a b (m * (b ^ 3 - a ^ 3)).
Proof.
  replace (m * (b ^ 3 - a ^ 3)) with (minus (m * b ^ 3) (m * a ^ 3)) by (unfold minus, plus, opp; cbn; ring).
  apply (is_RInt_derive (fun t => m * t ^ 3) (fun t => 3 * t ^ 2 * m)).
  - intros t _. auto_derive; [exact Logic.I|]. ring.
  - intros t _. apply (ex_derive_continuous (fun t => 3 * t ^ 2 * m)). auto_derive. exact Logic.I.
Qed.
Lemma shell_bounds g xi a b m M : 0 < xi -> 0 < a -> a <= b <= 1 -> (forall x, 0 < x -> continuous g x) ->
  (forall t, a < t < b -> m <= g (xi * sin (PI / 2 * t)) <= M) ->
  m * (b ^ 3 - a ^ 3) <= shell g xi a b <= M * (b ^ 3 - a ^ 3).
Proof.
  intros X A B G H. pose proof (shell_ex g xi a b X A ltac:(lra) G) as E. unfold shell. split.
  - rewrite <- (is_RInt_unique _ _ _ _ (cube_integral m a b)). apply RInt_le; [lra|eexists; apply cube_integral|exact E|].
    intros t T. apply Rmult_le_compat_l; [nra|]. apply H, T.
  - rewrite <- (is_RInt_unique _ _ _ _ (cube_integral M a b)). apply RInt_le; [lra|exact E|eexists; apply cube_integral|].
    intros t T. apply Rmult_le_compat_l; [nra|]. apply H, T.
Qed.
Lemma shell_plus g k xi a b : 0 < xi -> 0 < a -> a <= b <= 1 -> (forall x, 0 < x -> continuous g x) -> (forall x, 0 < x -> continuous k x) ->
  shell (fun x => g x + k x) xi a b = shell g xi a b + shell k xi a b.
Proof.
  intros X A B G K. unfold shell.
  rewrite (RInt_ext _ (fun t => plus (3 * t ^ 2 * g (xi * sin (PI / 2 * t))) (3 * t ^ 2 * k (xi * sin (PI / 2 * t))))).
  - rewrite (RInt_plus (fun t => 3 * t ^ 2 * g (xi * sin (PI / 2 * t))) (fun t => 3 * t ^ 2 * k (xi * sin (PI / 2 * t)))); [reflexivity| |];
    apply shell_ex; lra || assumption.
  - intros t _. change (3 * t ^ 2 * (g (xi * sin (PI / 2 * t)) + k (xi * sin (PI / 2 * t))) = 3 * t ^ 2 * g (xi * sin (PI / 2 * t)) + 3 * t ^ 2 * k (xi * sin (PI / 2 * t)) :> R). ring.
Qed.
Lemma shell_chasles g xi a b c : 0 < xi -> 0 < a -> a <= b -> b <= c <= 1 -> (forall x, 0 < x -> continuous g x) ->
  shell g xi a c = shell g xi a b + shell g xi b c.
Proof.
  intros X A B C G. unfold shell. symmetry. apply (RInt_Chasles (fun t => 3 * t ^ 2 * g (xi * sin (PI / 2 * t)))); apply shell_ex; lra || assumption.
Qed.

Section Theorems.
Variable quad : (R -> R) -> R -> R -> R.
Variables NA h kb : R.
Hypothesis Q : exact_quad quad.
Notation Cv := (heat_capacity quad NA h kb).
Notation F := (helmholtz quad NA h kb).
Notation Sm := (entropy quad NA h kb).
(** The reduced cut-off of a branch, and the wave vector of the lower limit of
    integration (reduced frequency 1e-6). *)
Definition cutoff (nu T : R) : R := h * nu / (kb * T).
Definition start (nu T : R) : R := at_fraction (/ 1000000 / cutoff nu T).
(** What the code integrates in place of the entropy planck y - free y. *)
Definition coded (y : R) : R := y / (exp y - 1) ^ 2 - ln (1 - exp (- y)).

Lemma coded_continuous y : 0 < y -> continuous coded y.
Proof.
  intros H. apply (ex_derive_continuous coded). unfold coded. auto_derive. pose proof (exp_minus_1 y H). pose proof (StatMechProofs.one_minus_exp y H).
  split; [|lra]. apply Rmult_integral_contrapositive. split; [lra|]. apply Rmult_integral_contrapositive. lra.
Qed.
Lemma sum_branches f freqs T : over_branches h kb f freqs T = total (map (fun nu => f T (nu * h / kb)) freqs).
Proof.
  unfold over_branches, total. assert (G : forall l a, fold_left (fun value xnti => value + f T xnti) l a = a + fold_right Rplus 0 (map (f T) l)).
  { induction l; intros b; simpl; [ring|]. rewrite IHl. ring. }
  rewrite G, map_map. ring.
Qed.
Lemma total_ext {A} (f g : A -> R) l : (forall x, In x l -> f x = g x) -> total (map f l) = total (map g l).
Proof. intros H. f_equal. apply map_ext_in. exact H. Qed.
Section Branch.
Variables T xnti : R.
Let xi := xnti / T.
Hypotheses (HT : 0 < T) (HX : wmin < xi).
Let wpos : 0 < wmin < xi. Proof. unfold wmin in *. lra. Qed.
Lemma Cv_branch : heat_capacity_integral quad NA kb T xnti = NA * kb * shell einstein xi (at_fraction (wmin / xi)) 1.
Proof.
  unfold heat_capacity_integral. destruct (Req_EM_T T 0); [lra|]. fold xi.
  rewrite (Q _ _ _ (RInt (on_zone einstein xi) (angle xi wmin) 1)); [|lra|].
  - rewrite <- shell_zone; [unfold angle, at_fraction; ring|]. pose proof (angle_range xi wmin ltac:(lra)).
    apply zone_ex; [lra|unfold at_fraction, angle in *; lra|unfold at_fraction, angle in *; lra|apply einstein_continuous].
  - apply (up_to_ext (fun x => einstein x * weight xi x)); [lra| |apply weighted_up_to; [exact wpos|apply einstein_continuous]].
    intros x X. unfold heat_capacity_function, einstein, weight. fold xi. pose proof (exp_minus_1 x ltac:(lra)). pose proof (sqrt_pos xi x ltac:(lra)).
    field. split; lra.
Qed.
Lemma F_branch : helmholtz_integral quad NA kb T xnti = NA * kb * T * shell free xi (at_fraction (wmin / xi)) 1.
Proof.
  unfold helmholtz_integral. destruct (Req_EM_T T 0); [lra|]. fold xi.
  rewrite (Q _ _ _ (RInt (on_zone free xi) (angle xi wmin) 1)); [|lra|].
  - rewrite <- shell_zone; [unfold angle, at_fraction; ring|]. pose proof (angle_range xi wmin ltac:(lra)).
    apply zone_ex; [lra|unfold at_fraction, angle in *; lra|unfold at_fraction, angle in *; lra|apply free_continuous].
  - apply (up_to_ext (fun x => free x * weight xi x)); [lra| |apply weighted_up_to; [exact wpos|apply free_continuous]].
    intros x X. unfold helmholtz_function, free, weight. fold xi. pose proof (sqrt_pos xi x ltac:(lra)).
    field. lra.
Qed.
Lemma S_branch : wmin < 999 / 1000 * xi ->
  entropy_integral quad NA kb T xnti = NA * kb * shell coded xi (at_fraction (wmin / xi)) (at_fraction (999 / 1000)).
Proof.
  intros HW. unfold entropy_integral. destruct (Req_EM_T T 0); [lra|]. fold xi.
  rewrite (Q _ _ _ (RInt (on_zone coded xi) (angle xi wmin) (angle xi (999 / 1000 * xi)))); [|lra|].
  - replace (at_fraction (999 / 1000)) with (angle xi (999 / 1000 * xi)) by (unfold angle, at_fraction; do 2 f_equal; field; lra).
    rewrite <- shell_zone; [unfold angle, at_fraction; ring|].
    pose proof (angle_range xi wmin ltac:(lra)). pose proof (angle_range xi (999 / 1000 * xi) ltac:(lra)).
    pose proof (angle_lt xi wmin (999 / 1000 * xi) ltac:(lra) ltac:(lra)). change (at_fraction (wmin / xi)) with (angle xi wmin).
    apply zone_ex; [lra|lra|lra|apply coded_continuous].
  - apply (up_to_ext (fun x => coded x * weight xi x)); [lra| |apply weighted_to; [lra|lra|apply coded_continuous]].
    intros x X. unfold entropy_function, coded, weight. fold xi. pose proof (exp_minus_1 x ltac:(lra)). pose proof (sqrt_pos xi x ltac:(lra)).
    field. split; lra.
Qed.
End Branch.

(** C79: the contributions vanish at T = 0. *)
Theorem C79_zero freqs : Cv freqs 0 = 0 /\ F freqs 0 = 0 /\ Sm freqs 0 = 0.
Proof.
  unfold heat_capacity, helmholtz, entropy. rewrite !sum_branches.
  assert (Z : forall f : R -> R -> R, (forall x, f 0 x = 0) -> total (map (fun nu => f 0 (nu * h / kb)) freqs) = 0).
  { intros f H. induction freqs as [|a l IH]; [reflexivity|]. cbn. rewrite H. unfold total in IH. rewrite IH. ring. }
  repeat split; apply Z; intros x; unfold heat_capacity_integral, helmholtz_integral, entropy_integral; destruct (Req_EM_T 0 0); congruence.
Qed.

(** C79: heat capacity and free energy are, branch by branch, the mean of the
    oscillator functions over the sphere, less a core of reduced frequency 1e-6. *)
Theorem C79_values freqs T : 0 < T -> 0 < kb -> (forall nu, In nu freqs -> / 1000000 < cutoff nu T) ->
  Cv freqs T = total (map (fun nu => NA * kb * shell einstein (cutoff nu T) (start nu T) 1) freqs) /\
  F freqs T = total (map (fun nu => NA * kb * T * shell free (cutoff nu T) (start nu T) 1) freqs).
Proof.
  intros HT HK HX. unfold heat_capacity, helmholtz. rewrite !sum_branches.
  assert (E : forall nu, nu * h / kb / T = cutoff nu T) by (intros; unfold cutoff; field; lra).
  split; apply total_ext; intros nu I; specialize (HX nu I); [rewrite Cv_branch|rewrite F_branch]; try assumption;
  rewrite ?E; unfold wmin, start; try reflexivity; exact HX.
Qed.
Lemma start_range nu T : / 1000000 < cutoff nu T -> 0 < start nu T < 1.
Proof.
  intros H. pose proof (angle_range (cutoff nu T) (/ 1000000) ltac:(lra)). pose proof (angle_lt_1 (cutoff nu T) (/ 1000000) ltac:(lra)).
  unfold start, at_fraction. unfold angle in *. lra.
Qed.
Lemma total_le {A} (f g : A -> R) l : (forall x, In x l -> f x <= g x) -> total (map f l) <= total (map g l).
Proof.
  induction l as [|a l IH]; intros H; cbn; [lra|]. apply Rplus_le_compat; [apply H; now left|]. apply IH. intros; apply H; now right.
Qed.
Lemma total_const {A} k (l : list A) : total (map (fun _ => k) l) = INR (length l) * k.
Proof. induction l as [|a l IH]; [cbn; ring|]. cbn [map total fold_right length]. unfold total in IH. rewrite IH, S_INR. ring. Qed.
Lemma zone_range xi t : 0 < xi -> 0 < t < 1 -> 0 < xi * sin (PI / 2 * t) <= xi.
Proof. intros X H. split; [apply zone_sin; lra|]. pose proof (SIN_bound (PI / 2 * t)). nra. Qed.

(** C79: the heat capacity lies between 0 and that of the classical solid, which
    it approaches when every cut-off is small. *)
Theorem C79_heat_capacity freqs T : 0 < T -> 0 < kb -> 0 < NA -> (forall nu, In nu freqs -> / 1000000 < cutoff nu T) ->
  0 <= Cv freqs T <= INR (length freqs) * (NA * kb) /\
  total (map (fun nu => NA * kb * ((1 - cutoff nu T) * (1 - start nu T ^ 3))) freqs) <= Cv freqs T.
Proof.
  intros HT HK HN HX. rewrite (proj1 (C79_values freqs T HT HK HX)). assert (P : 0 < NA * kb) by nra.
  assert (B : forall nu, In nu freqs -> exp (- cutoff nu T) * (1 - start nu T ^ 3) <= shell einstein (cutoff nu T) (start nu T) 1 <= 1 * (1 - start nu T ^ 3)).
  { intros nu I. specialize (HX nu I). pose proof (start_range nu T HX). replace (1 - start nu T ^ 3) with (1 ^ 3 - start nu T ^ 3) by ring.
    apply shell_bounds; [lra|lra|lra|apply einstein_continuous|]. intros t Ht. pose proof (zone_range (cutoff nu T) t ltac:(lra) ltac:(lra)) as Z.
    pose proof (einstein_bounds _ (proj1 Z)) as EB. split; [|apply EB]. apply Rle_trans with (2 := proj1 EB).
    destruct (Rle_lt_or_eq_dec _ _ (proj2 Z)) as [L|L]; [left; apply exp_increasing; lra|rewrite L; lra]. }
  assert (C3 : forall nu, In nu freqs -> 0 <= 1 - start nu T ^ 3 <= 1).
  { intros nu I. pose proof (start_range nu T (HX nu I)). assert (0 <= start nu T ^ 3 <= 1); [|lra]. split; [apply pow_le; lra|]. rewrite <- (pow1 3). apply pow_incr. lra. }
  split; [split|].
  - replace 0 with (INR (length freqs) * 0) by ring. rewrite <- total_const. apply total_le. intros nu I. specialize (B nu I). specialize (C3 nu I).
    pose proof (exp_pos (- cutoff nu T)). assert (0 <= exp (- cutoff nu T) * (1 - start nu T ^ 3)) by nra. nra.
  - rewrite <- total_const. apply total_le. intros nu I. specialize (B nu I). specialize (C3 nu I). nra.
  - apply total_le. intros nu I. specialize (B nu I). specialize (C3 nu I). pose proof (exp_ineq1_le (- cutoff nu T)).
    apply Rmult_le_compat_l; [lra|]. apply Rle_trans with (2 := proj1 B). apply Rmult_le_compat_r; lra.
Qed.
(** C79: the free energy is not positive. *)
Theorem C79_free_energy freqs T : 0 < T -> 0 < kb -> 0 < NA -> (forall nu, In nu freqs -> / 1000000 < cutoff nu T) ->
  F freqs T <= 0 /\ (freqs <> [] -> F freqs T < 0).
Proof.
  intros HT HK HN HX. rewrite (proj2 (C79_values freqs T HT HK HX)). assert (P : 0 < NA * kb * T) by (apply Rmult_lt_0_compat; nra).
  assert (B : forall nu, In nu freqs -> NA * kb * T * shell free (cutoff nu T) (start nu T) 1 < 0).
  { intros nu I. specialize (HX nu I). pose proof (start_range nu T HX) as SR.
    assert (U : shell free (cutoff nu T) (start nu T) 1 <= free (cutoff nu T) * (1 ^ 3 - start nu T ^ 3)).
    { apply (shell_bounds free (cutoff nu T) (start nu T) 1 (- / (cutoff nu T * sin (PI / 2 * start nu T)))); [lra|lra|lra|apply free_continuous|].
      intros t Ht. pose proof (zone_range (cutoff nu T) t ltac:(lra) ltac:(lra)) as Z. pose proof (zone_range (cutoff nu T) (start nu T) ltac:(lra) ltac:(lra)) as Z0.
      pose proof PI_RGT_0. split.
      - apply Rle_trans with (2 := proj1 (free_bounds _ (proj1 Z))). apply Ropp_le_contravar, Rinv_le_contravar; [lra|].
        apply Rmult_le_compat_l; [lra|]. left. apply sin_increasing_1; nra.
      - unfold free. pose proof (StatMechProofs.one_minus_exp _ (proj1 Z)). apply ln_le; [lra|].
        assert (exp (- cutoff nu T) <= exp (- (cutoff nu T * sin (PI / 2 * t)))); [|lra].
        destruct (Rle_lt_or_eq_dec _ _ (proj2 Z)) as [L|L]; [left; apply exp_increasing; lra|rewrite L; lra]. }
    pose proof (free_bounds (cutoff nu T) ltac:(lra)). assert (0 < 1 ^ 3 - start nu T ^ 3).
    { assert (start nu T ^ 3 < 1); [|lra]. assert (start nu T * start nu T < 1) by nra. simpl. nra. }
    assert (free (cutoff nu T) * (1 ^ 3 - start nu T ^ 3) < 0) by nra.
    assert (shell free (cutoff nu T) (start nu T) 1 < 0) by lra. nra. }
  split.
  - clear HX. induction freqs as [|a l IH]; cbn [map total fold_right length]; [lra|]. pose proof (B a (or_introl eq_refl)). specialize (IH (fun nu I => B nu (or_intror I))). unfold total in IH. lra.
  - intros N. destruct freqs as [|a l]; [congruence|]. cbn [map total fold_right]. pose proof (B a (or_introl eq_refl)).
    assert (fold_right Rplus 0 (map (fun nu => NA * kb * T * shell free (cutoff nu T) (start nu T) 1) l) <= 0); [|lra].
    assert (B' : forall nu, In nu l -> NA * kb * T * shell free (cutoff nu T) (start nu T) 1 < 0) by (intros; apply B; now right).
    clear - B'. induction l as [|b l IH]; cbn [map total fold_right length]; [lra|]. pose proof (B' b (or_introl eq_refl)). specialize (IH (fun nu I => B' nu (or_intror I))). lra.
Qed.
(** C79: only the ratios of frequency and temperature count. *)
Theorem C79_scaling freqs freqs' T k : 0 < T -> 0 < kb -> 0 < k -> Permutation freqs' (map (Rmult k) freqs) ->
  (forall nu, In nu freqs -> / 1000000 < cutoff nu T) ->
  Cv freqs' (k * T) = Cv freqs T /\ F freqs' (k * T) = k * F freqs T.
Proof.
  intros HT HK K P HX.
  assert (E : forall nu, cutoff (k * nu) (k * T) = cutoff nu T) by (intros; unfold cutoff; field; lra).
  assert (HX' : forall nu, In nu freqs' -> / 1000000 < cutoff nu (k * T)).
  { intros nu I. apply (Permutation_in _ P) in I. apply in_map_iff in I as (n & <- & I). rewrite E. now apply HX. }
  assert (HT' : 0 < k * T) by nra.
  destruct (C79_values freqs T HT HK HX) as (-> & ->). destruct (C79_values freqs' (k * T) HT' HK HX') as (-> & ->).
  assert (TP : forall f : R -> R, total (map f freqs') = total (map (fun nu => f (k * nu)) freqs)).
  { intros f. rewrite <- (map_map (Rmult k) f). unfold total. clear - P. apply (Permutation_map f) in P. revert P. generalize (map f freqs'), (map f (map (Rmult k) freqs)).
    intros l l' P. induction P; cbn [map total fold_right length]; lra. }
  rewrite !TP. unfold start. split.
  - apply total_ext. intros nu _. now rewrite E.
  - rewrite (total_ext _ (fun nu => k * (NA * kb * T * shell free (cutoff nu T) (at_fraction (/ 1000000 / cutoff nu T)) 1))) by (intros; rewrite E; ring).
    clear. induction freqs as [|a l IH]; cbn [map total fold_right length]; [ring|]. unfold total in IH. rewrite IH. ring.
Qed.
(** C79: exactly what is returned as entropy. *)
Theorem C79_entropy_value freqs T : 0 < T -> 0 < kb -> (forall nu, In nu freqs -> / 1000000 < 999 / 1000 * cutoff nu T) ->
  Sm freqs T = total (map (fun nu => NA * kb * shell coded (cutoff nu T) (start nu T) (at_fraction (999 / 1000))) freqs).
Proof.
  intros HT HK HX. unfold entropy. rewrite sum_branches.
  assert (E : forall nu, nu * h / kb / T = cutoff nu T) by (intros; unfold cutoff; field; lra).
  apply total_ext. intros nu I. specialize (HX nu I). rewrite S_branch; rewrite ?E; unfold wmin, start; try reflexivity; try assumption; lra.
Qed.
(** C79: the coded entropy does not belong to the coded free energy. F + T S is
    an energy; for cut-offs between 1/1000 and 1/10 (a branch of 2 THz above
    960 K) it exceeds 4 N_A k T, while the energy of the branch is at most
    N_A k T. *)
Lemma sin_half x : 0 < x <= 1 -> x / 2 <= sin x.
Proof.
  intros H. destruct (MVT_gen sin 0 x cos) as [c [B E]].
  - intros. apply is_derive_sin.
  - intros. apply continuity_sin.
  - rewrite Rmin_left, Rmax_right in B by lra. rewrite sin_0 in E.
    assert (1 / 2 <= cos c); [|nra]. rewrite <- cos_PI3. pose proof PI2_3_2. apply cos_decr_1; lra.
Qed.
Lemma fraction_near : 14 / 15 <= at_fraction (999 / 1000) <= 1.
Proof.
  pose proof PI2_3_2 as P3. pose proof PI_4 as P4. unfold at_fraction. split.
  - assert (A : PI / 2 - 1 / 10 <= asin (999 / 1000)).
    { apply asin_ge; [lra|lra|]. rewrite sin_shift. replace (1 / 10) with (2 * (1 / 20)) by lra. rewrite cos_2a_sin.
      pose proof (sin_half (1 / 20) ltac:(lra)). nra. }
    apply Rle_trans with (2 / PI * (PI / 2 - 1 / 10)).
    + replace (2 / PI * (PI / 2 - 1 / 10)) with (1 - / PI / 5) by (field; lra).
      assert (/ PI <= / 3) by (apply Rinv_le_contravar; lra). lra.
    + apply Rmult_le_compat_l; [|exact A]. left. apply Rmult_lt_0_compat; [lra|apply Rinv_0_lt_compat; lra].
  - pose proof (asin_bound (999 / 1000)). replace 1 with (2 / PI * (PI / 2)) by (field; lra).
    apply Rmult_le_compat_l; [|lra]. left. apply Rmult_lt_0_compat; [lra|apply Rinv_0_lt_compat; lra].
Qed.
Lemma start_small nu T : / 1000 <= cutoff nu T -> start nu T <= 1 / 10.
Proof.
  intros H. pose proof (start_range nu T ltac:(lra)) as SR. pose proof (angle_sin (cutoff nu T) (/ 1000000) ltac:(lra)) as A.
  change (angle (cutoff nu T) (/ 1000000)) with (start nu T) in A. pose proof PI2_3_2. pose proof PI_4.
  apply Rnot_lt_le. intros L. assert (sin (PI / 2 * (1 / 10)) < sin (PI / 2 * start nu T)) by (apply sin_increasing_1; nra).
  pose proof (sin_half (PI / 2 * (1 / 10)) ltac:(lra)). nra.
Qed.
Theorem C79_entropy_refuted nu T : 0 < T -> 0 < kb -> 0 < NA -> / 1000 <= cutoff nu T <= 1 / 10 ->
  F [nu] T + T * Sm [nu] T >= 4 * (NA * kb * T) /\
  NA * kb * T * shell planck (cutoff nu T) (start nu T) 1 <= NA * kb * T.
Proof.
  intros HT HK HN HX. assert (P : 0 < NA * kb * T) by (apply Rmult_lt_0_compat; nra).
  pose proof (start_range nu T ltac:(lra)) as SR. pose proof (start_small nu T ltac:(lra)) as SS. pose proof fraction_near as FN.
  pose proof PI2_3_2 as P3. pose proof PI_4 as P4.
  set (xi := cutoff nu T) in *. set (a := start nu T) in *. set (b := at_fraction (999 / 1000)) in *.
  split.
  - assert (HX1 : forall n, In n [nu] -> / 1000000 < cutoff n T) by (intros n [<-|[]]; fold xi; lra).
    rewrite (proj2 (C79_values [nu] T HT HK HX1)). unfold entropy. rewrite sum_branches. cbn [map total fold_right]. fold xi a.
    assert (E : nu * h / kb / T = xi) by (unfold xi, cutoff; field; lra).
    rewrite S_branch; [|lra|rewrite E; unfold wmin; lra|rewrite E; unfold wmin; lra]. rewrite E. fold b. change (at_fraction (wmin / xi)) with a.
    pose (K := fun y => y / (exp y - 1) ^ 2).
    assert (KC : forall x, 0 < x -> continuous K x).
    { intros y Y. apply (ex_derive_continuous K). unfold K. auto_derive. pose proof (exp_minus_1 y Y).
      apply Rmult_integral_contrapositive. split; [lra|]. apply Rmult_integral_contrapositive. lra. }
    assert (SP : shell coded xi a b + shell free xi a b = shell K xi a b).
    { rewrite <- shell_plus; [|lra|lra|lra|apply coded_continuous|apply free_continuous].
      unfold shell. apply RInt_ext. intros t _. unfold coded, free, K. change (@eq R) with (@eq R). f_equal. ring. }
    rewrite (shell_chasles free xi a b 1); [|lra|lra|lra|lra|apply free_continuous].
    assert (L1 : 8 / 10 / xi * (b ^ 3 - a ^ 3) <= shell K xi a b).
    { apply (shell_bounds K xi a b (8 / 10 / xi) (/ (xi * sin (PI / 2 * a)))); [lra|lra|lra|exact KC|].
      intros t Ht. pose proof (zone_range xi t ltac:(lra) ltac:(lra)) as Z. pose proof (zone_range xi a ltac:(lra) ltac:(lra)) as Za.
      assert (Y : xi * sin (PI / 2 * a) <= xi * sin (PI / 2 * t)) by (apply Rmult_le_compat_l; [lra|]; left; apply sin_increasing_1; nra).
      set (y := xi * sin (PI / 2 * t)) in *. pose proof (exp_minus_1 y ltac:(lra)) as E1. pose proof (exp_upper y) as E2. unfold K.
      assert (EP : 0 < (exp y - 1) ^ 2) by (apply pow_lt; lra). split.
      - apply Rle_trans with (8 / 10 / y).
        { apply Rmult_le_compat_l; [lra|]. apply Rinv_le_contravar; lra. }
        apply Rmult_le_reg_r with (y * (exp y - 1) ^ 2); [nra|].
        replace (8 / 10 / y * (y * (exp y - 1) ^ 2)) with (8 / 10 * (exp y - 1) ^ 2) by (field; lra).
        replace (y / (exp y - 1) ^ 2 * (y * (exp y - 1) ^ 2)) with (y ^ 2) by (field; lra).
        assert (I1 : (exp y - 1) ^ 2 <= (y * exp y) ^ 2) by (apply pow_incr; lra).
        assert (I2 : exp y * exp y * (1 - 2 * y) <= 1).
        { pose proof (exp_ineq1_le (- (2 * y))) as I3. assert (I4 : exp y * exp y * exp (- (2 * y)) = 1) by (rewrite <- !exp_plus, <- exp_0; f_equal; ring).
          pose proof (exp_pos y). assert (0 < exp y * exp y) by nra. nra. }
        assert (I5 : 8 / 10 * (exp y * exp y) <= 1). { pose proof (exp_pos y). assert (0 < exp y * exp y) by nra. nra. }
        apply Rle_trans with (8 / 10 * (y * exp y) ^ 2); [lra|]. replace (8 / 10 * (y * exp y) ^ 2) with (y ^ 2 * (8 / 10 * (exp y * exp y))) by ring.
        rewrite <- (Rmult_1_r (y ^ 2)) at 2. apply Rmult_le_compat_l; [apply pow2_ge_0|exact I5].
      - apply Rle_trans with (/ y); [|apply Rinv_le_contravar; lra].
        apply Rmult_le_reg_r with ((exp y - 1) ^ 2); [lra|]. unfold Rdiv. rewrite Rmult_assoc, Rinv_l by lra.
        apply Rmult_le_reg_l with y; [lra|]. replace (y * (/ y * (exp y - 1) ^ 2)) with ((exp y - 1) ^ 2) by (field; lra). nra. }
    assert (L2 : - / (999 / 1000 * xi) * (1 ^ 3 - b ^ 3) <= shell free xi b 1).
    { apply (shell_bounds free xi b 1 (- / (999 / 1000 * xi)) 0); [lra|lra|lra|apply free_continuous|].
      intros t Ht. pose proof (zone_range xi t ltac:(lra) ltac:(lra)) as Z. pose proof (free_bounds _ (proj1 Z)) as FB. split; [|lra].
      apply Rle_trans with (2 := proj1 FB). apply Ropp_le_contravar, Rinv_le_contravar; [lra|].
      assert (SB : sin (PI / 2 * b) = 999 / 1000).
      { unfold b, at_fraction. replace (PI / 2 * (2 / PI * asin (999 / 1000))) with (asin (999 / 1000)) by (field; lra). apply sin_asin. lra. }
      rewrite <- SB, (Rmult_comm (sin _)). apply Rmult_le_compat_l; [lra|]. left. apply sin_increasing_1; nra. }
    assert (B3 : 8 / 10 <= b ^ 3 <= 1).
    { split; [|rewrite <- (pow1 3); apply pow_incr; lra]. apply Rle_trans with ((14 / 15) ^ 3); [lra|]. apply pow_incr. lra. }
    assert (A3 : 0 <= a ^ 3 <= 1 / 1000).
    { split; [apply pow_le; lra|]. replace (1 / 1000) with ((1 / 10) ^ 3) by lra. apply pow_incr. lra. }
    assert (IX : 10 <= / xi). { replace 10 with (/ (1 / 10)) by lra. apply Rinv_le_contravar; lra. }
    replace (/ (999 / 1000 * xi)) with (1000 / 999 * / xi) in L2 by (field; lra).
    assert (G : 4 <= shell K xi a b + shell free xi b 1).
    { unfold Rdiv in L1. assert (8 / 10 * / xi * (799 / 1000) <= 8 * / 10 * / xi * (b ^ 3 - a ^ 3)) by (apply Rmult_le_compat; nra).
      assert (1000 / 999 * / xi * (1 ^ 3 - b ^ 3) <= 1000 / 999 * / xi * (2 / 10)) by (apply Rmult_le_compat_l; nra). lra. }
    replace (NA * kb * T * (shell free xi a b + shell free xi b 1) + 0 + T * (NA * kb * shell coded xi a b + 0))
      with (NA * kb * T * (shell K xi a b + shell free xi b 1)) by (rewrite <- SP; ring).
    apply Rle_ge. rewrite (Rmult_comm 4). apply Rmult_le_compat_l; lra.
  - rewrite <- (Rmult_1_r (NA * kb * T)) at 2. apply Rmult_le_compat_l; [lra|].
    apply Rle_trans with (1 * (1 ^ 3 - a ^ 3)).
    + apply (shell_bounds planck xi a 1 0 1); [lra|lra|lra|apply planck_continuous|]. intros t Ht. apply planck_bounds, zone_range; lra.
    + assert (0 <= a ^ 3) by (apply pow_le; lra). lra.
Qed.
End Theorems.

(** ** An integrator satisfying the contract, and a branch *)
Definition limit_quad (f : R -> R) (a b : R) : R := real (Lim_seq (fun n => RInt f a (b - (b - a) / (INR n + 2)))).
Lemma limit_quad_exact : exact_quad limit_quad.
Proof.
  intros f a b I AB [_ L]. unfold limit_quad.
  assert (X : is_lim_seq (fun n => RInt f a (b - (b - a) / (INR n + 2))) I).
  { apply (filterlim_comp _ _ _ (fun n => b - (b - a) / (INR n + 2)) (fun c => RInt f a c) eventually (at_left b) (locally I)); [|exact L].
    intros Pr [eps HP]. assert (W : is_lim_seq (fun n => b - (b - a) / (INR n + 2)) b).
    { replace (Finite b) with (Finite (b - (b - a) * 0)) by (f_equal; ring). apply is_lim_seq_minus'; [apply is_lim_seq_const|].
      apply (is_lim_seq_scal_l (fun n => / (INR n + 2)) (b - a) 0). apply (is_lim_seq_inv (fun n => INR n + 2) p_infty); [|discriminate].
      apply (is_lim_seq_plus INR (fun _ => 2) p_infty 2 p_infty); [apply is_lim_seq_INR|apply is_lim_seq_const|reflexivity]. }
    specialize (W (ball b eps) (locally_ball b eps)). unfold filtermap in *. revert W. apply filter_imp. intros n Hn. apply HP; [exact Hn|].
    pose proof (pos_INR n). assert (0 < (b - a) / (INR n + 2)) by (apply Rmult_lt_0_compat; [lra|apply Rinv_0_lt_compat; lra]). lra. }
  rewrite (is_lim_seq_unique _ _ X). reflexivity.
Qed.
Example C79_instance : exact_quad limit_quad /\ (forall nu, In nu [2; 3] -> / 1000000 < cutoff 48 1 nu 960) /\
  / 1000 <= cutoff 48 1 2 960 <= 1 / 10 /\
  0 <= heat_capacity limit_quad 6 48 1 [2; 3] 960 <= 12 /\
  24 * 960 <= helmholtz limit_quad 6 48 1 [2] 960 + 960 * entropy limit_quad 6 48 1 [2] 960.
Proof.
  assert (C : forall nu, In nu [2; 3] -> / 1000000 < cutoff 48 1 nu 960) by (intros nu [<-|[<-|[]]]; unfold cutoff; lra).
  assert (D : / 1000 <= cutoff 48 1 2 960 <= 1 / 10) by (unfold cutoff; lra).
  split; [exact limit_quad_exact|]. split; [exact C|]. split; [exact D|]. split.
  - pose proof (proj1 (C79_heat_capacity limit_quad 6 48 1 limit_quad_exact [2; 3] 960 ltac:(lra) ltac:(lra) ltac:(lra) C)) as B. cbn [length] in B. simpl INR in B. lra.
  - pose proof (proj1 (C79_entropy_refuted limit_quad 6 48 1 limit_quad_exact 2 960 ltac:(lra) ltac:(lra) ltac:(lra) D)) as B. lra.
Qed.

Print Assumptions C79_zero.
Print Assumptions C79_values.
Print Assumptions C79_heat_capacity.
Print Assumptions C79_free_energy.
Print Assumptions C79_scaling.
Print Assumptions C79_entropy_value.
Print Assumptions C79_entropy_refuted.
