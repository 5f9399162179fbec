(** Property C19: the energy-volume equations of state, their minimum, and the
    pressure the library derives from them. *)
From Coq Require Import Reals Lra Lia Psatz Bool Arith String List.
From Coquelicot Require Import Coquelicot.
From Verif Require Import PvEosModel PvEosSpec PvEosProofs PvEosProps EvEosModel.
Import ListNotations.
Open Scope R_scope.

(** The third-order pressure each tag stands for, in textbook form. *)
Inductive third_order_pressure (k0 k1 v0 V : R) : string -> R -> Prop :=
| tp_murnaghan : third_order_pressure k0 k1 v0 V "murnaghan" (murnaghan_textbook k0 k1 v0 V)
| tp_birchmurnaghan : third_order_pressure k0 k1 v0 V "birchmurnaghan" (bm3_textbook k0 k1 v0 V)
| tp_vinet : third_order_pressure k0 k1 v0 V "vinet" (vinet_textbook k0 k1 v0 V)
| tp_pouriertarantola : third_order_pressure k0 k1 v0 V "pouriertarantola" (ns3_textbook k0 k1 v0 V).

Definition tags : list string := ["murnaghan"; "birchmurnaghan"; "vinet"; "pouriertarantola"]%string.

Lemma exp_mult_3 a b : exp (a * b) ^ 3 = exp (3 * a * b).
Proof. replace (3 * a * b) with (a * b + (a * b + a * b)) by ring. rewrite !exp_plus. ring. Qed.

Local Ltac eqR := match goal with |- @eq _ ?a ?b => change (@eq R a b) end.

(** ** The exact derivatives *)
Section Forms.
Variables E0 k0 k1 v0 : R.
Hypothesis Hv : 0 < v0.

Lemma murnaghan_derive V : k1 <> 0 -> k1 <> 1 -> 0 < V ->
  is_derive (fun V => ev_murnaghan V E0 k0 k1 v0) V (- murnaghan_textbook k0 k1 v0 V).
Proof.
  intros H0 H1 HV.
  set (g := fun x => E0 + k0 * (v0 * exp (- x)) / k1 * (exp (k1 * x) / (k1 - 1) + 1) - v0 * k0 / (k1 - 1)).
  apply is_derive_ext_loc with (f := fun V => g (ln (v0 / V))).
  - generalize (locally_pos V HV). apply filter_imp. intros y Hy. unfold g, ev_murnaghan, Rpower.
    rewrite exp_Ropp, exp_ln_ratio by assumption. eqR. set (e := exp _). field. simpl in *. repeat split; lra.
  - evar_last. { apply comp_derive; try assumption. unfold g. auto_derive; [exact I|]. reflexivity. }
    unfold murnaghan_textbook, Rpower.
    rewrite exp_Ropp, exp_ln_ratio by assumption.
    set (e := exp (k1 * ln (v0 / V))). field. repeat split; lra.
Qed.

Lemma bm_derive V : 0 < V ->
  is_derive (fun V => ev_birchmurnaghan V E0 k0 k1 v0) V (- bm3_textbook k0 k1 v0 V).
Proof.
  intros HV.
  set (g := fun x => E0 + (9 * k0 * v0 / 16) * (k1 * (exp (2 / 3 * x) - 1) ^ 3 + (exp (2 / 3 * x) - 1) ^ 2 * (6 - 4 * exp (2 / 3 * x)))).
  apply is_derive_ext_loc with (f := fun V => g (ln (v0 / V))).
  - generalize (locally_pos V HV). apply filter_imp. intros y Hy. unfold g, ev_birchmurnaghan, Rpower. cbv zeta.
    replace (exp (2 / 3 * ln (v0 / y))) with (exp (1 / 3 * ln (v0 / y)) ^ 2); [reflexivity|].
    replace (2 / 3 * ln (v0 / y)) with (1 / 3 * ln (v0 / y) + 1 / 3 * ln (v0 / y)) by field.
    rewrite exp_plus. ring.
  - evar_last. { apply comp_derive; try assumption. unfold g. auto_derive; [exact I|]. reflexivity. }
    unfold bm3_textbook, bm2_textbook, Rpower.
    replace (exp (7 / 3 * ln (v0 / V))) with (exp (2 / 3 * ln (v0 / V)) * exp (2 / 3 * ln (v0 / V)) * (v0 / V)).
    2:{ rewrite <- (exp_ln_ratio v0 V) at 3 by assumption. rewrite <- !exp_plus. f_equal. field. }
    replace (exp (5 / 3 * ln (v0 / V))) with (exp (2 / 3 * ln (v0 / V)) * (v0 / V)).
    2:{ rewrite <- (exp_ln_ratio v0 V) at 2 by assumption. rewrite <- !exp_plus. f_equal. field. }
    change (2 * / 3) with (2 / 3).
    set (e := exp (2 / 3 * ln (v0 / V))). field. lra.
Qed.

Lemma pt_derive V : 0 < V ->
  is_derive (fun V => ev_pouriertarantola V E0 k0 k1 v0) V (- ns3_textbook k0 k1 v0 V).
Proof.
  intros HV.
  set (g := fun x => E0 + (k0 * v0 * x ^ 2) / 6 * (3 + x * (k1 - 2))).
  apply is_derive_ext_loc with (f := fun V => g (ln (v0 / V))).
  - generalize (locally_pos V HV). apply filter_imp. intros y Hy. unfold g, ev_pouriertarantola, Rpower. cbv zeta.
    rewrite ln_exp, (ln_inv_ratio v0 y) by assumption.
    replace (-3 * (1 / 3 * - ln (v0 / y))) with (ln (v0 / y)) by field. reflexivity.
  - evar_last. { apply comp_derive; try assumption. unfold g. auto_derive; [exact I|]. reflexivity. }
    unfold ns3_textbook, ns2_textbook. set (e := ln (v0 / V)). field. lra.
Qed.

Lemma vinet_derive V : k1 <> 1 -> 0 < V ->
  is_derive (fun V => ev_vinet V E0 k0 k1 v0) V (- vinet_textbook k0 k1 v0 V).
Proof.
  intros H1 HV.
  set (g := fun x => let eta := exp (- (1 / 3) * x) in
     E0 + 2 * k0 * v0 / (k1 - 1) ^ 2 * (2 - (5 + 3 * k1 * (eta - 1) - 3 * eta) * exp (-3 * (k1 - 1) * (eta - 1) / 2))).
  assert (ETA : forall y, 0 < y -> Rpower (y / v0) (1 / 3) = exp (- (1 / 3) * ln (v0 / y))).
  { intros y Hy. unfold Rpower. rewrite (ln_inv_ratio v0 y) by assumption. f_equal. ring. }
  apply is_derive_ext_loc with (f := fun V => g (ln (v0 / V))).
  - generalize (locally_pos V HV). apply filter_imp. intros y Hy. unfold g, ev_vinet. cbv zeta.
    rewrite ETA by assumption. reflexivity.
  - evar_last. { apply comp_derive; try assumption. unfold g. cbv zeta. auto_derive; [exact I|]. reflexivity. }
    unfold vinet_textbook. cbv zeta. rewrite ETA by assumption.
    assert (V3 : V = v0 * exp (- (1 / 3) * ln (v0 / V)) ^ 3).
    { rewrite exp_mult_3. replace (3 * - (1 / 3) * ln (v0 / V)) with (- ln (v0 / V)) by field.
      rewrite exp_Ropp, exp_ln_ratio by assumption. field. lra. }
    set (x := ln (v0 / V)) in *. clearbody x.
    replace (- (1 * / 3) * x) with (- (1 / 3) * x) by reflexivity.
    pose proof (exp_pos (- (1 / 3) * x)) as HE.
    set (e := exp (- (1 / 3) * x)) in *. clearbody e. subst V.
    replace (3 / 2 * (k1 - 1) * (1 - e)) with (-3 * (k1 - 1) * (e - 1) / 2) by field.
    unfold Rdiv, Rminus. set (F := exp (-3 * (k1 + - (1)) * (e + - (1)) * / 2)). field. repeat split; lra.
Qed.
End Forms.

(** C19: dE/dV = -P, with P the textbook third-order pressure, at every volume. *)
Theorem C19_derivative_is_minus_pressure tag form E0 k0 k1 v0 V P :
  0 < v0 -> 0 < V -> k1 <> 0 -> k1 <> 1 ->
  set_eos_type tag = Some form -> third_order_pressure k0 k1 v0 V tag P ->
  is_derive (fun V => form V E0 k0 k1 v0) V (- P).
Proof.
  intros Hv HV H0 H1 E T. destruct T; cbn in E; inversion E; subst form.
  - now apply murnaghan_derive.
  - now apply bm_derive.
  - now apply vinet_derive.
  - now apply pt_derive.
Qed.

(** Every tag with an energy form has its pressure, and no other. *)
Theorem C19_tags tag :
  (In tag tags <-> set_eos_type tag <> None) /\ (In tag tags <-> set_pv_eos_type tag <> None).
Proof.
  unfold set_eos_type, set_pv_eos_type, tags. simpl.
  destruct (String.eqb_spec tag "murnaghan"); [subst; split; split; intros; auto; discriminate|].
  destruct (String.eqb_spec tag "birchmurnaghan"); [subst; split; split; intros; auto; discriminate|].
  destruct (String.eqb_spec tag "vinet"); [subst; split; split; intros; auto; discriminate|].
  destruct (String.eqb_spec tag "pouriertarantola"); [subst; split; split; intros; auto 6; discriminate|].
  assert (~ ("murnaghan"%string = tag \/ "birchmurnaghan"%string = tag \/ "vinet"%string = tag \/ "pouriertarantola"%string = tag \/ False))
    by intuition congruence.
  intuition congruence.
Qed.

(** C19: minimum and curvature. *)
Definition energy_reference (E : R -> R) (e0 k0 v0 : R) : Prop :=
  E v0 = e0 /\
  exists E1 : R -> R, locally v0 (fun V => is_derive E V (E1 V)) /\ E1 v0 = 0 /\ is_derive E1 v0 (k0 / v0).

Lemma ratio_1 v0 : 0 < v0 -> v0 / v0 = 1.
Proof. intros. field. lra. Qed.
Lemma Rpower_1_l a : Rpower 1 a = 1.
Proof. unfold Rpower. rewrite ln_1, Rmult_0_r. apply exp_0. Qed.

Lemma energy_reference_of_pressure (E P : R -> R) e0 k0 k1 k2 v0 :
  0 < v0 -> E v0 = e0 -> (forall V, 0 < V -> is_derive E V (- P V)) ->
  reference_state P v0 k0 k1 k2 -> energy_reference E e0 k0 v0.
Proof.
  intros Hv HE HD (P0 & K & K' & K'' & B & _ & _ & HK & _). split; [exact HE|].
  exists (fun V => - P V). split; [|split].
  - generalize (locally_pos v0 Hv). apply filter_imp. exact HD.
  - rewrite P0. eqR; ring.
  - unfold bulk_modulus_near in B. apply locally_singleton in B. rewrite HK in B.
    replace (k0 / v0) with (opp (- k0 / v0)) by (unfold opp; simpl; field; lra).
    apply (is_derive_opp P). exact B.
Qed.

Theorem C19_minimum tag form E0 k0 k1 v0 :
  0 < v0 -> k0 <> 0 -> k1 <> 0 -> k1 <> 1 ->
  set_eos_type tag = Some form ->
  energy_reference (fun V => form V E0 k0 k1 v0) E0 k0 v0.
Proof.
  intros Hv Hk H0 H1 E.
  set (p := {| K0 := k0; K1 := k1; K2 := 0; V0 := v0 |}).
  assert (A : admissible p) by (split; assumption).
  assert (LOC : forall P Q k2, (forall V, 0 < V -> P V = Q V) -> reference_state P v0 k0 k1 k2 ->
     P v0 = Q v0 /\ reference_state P v0 k0 k1 k2) by (intros; split; auto).
  unfold set_eos_type in E.
  destruct (String.eqb_spec tag "murnaghan").
  { inversion E; subst form. apply energy_reference_of_pressure with (P := murnaghan_textbook k0 k1 v0) (k1 := k1) (k2 := 0); auto.
    - unfold ev_murnaghan. rewrite ratio_1, Rpower_1_l by assumption. field. split; lra.
    - intros. now apply murnaghan_derive.
    - apply (C16_murnaghan p 3 false true); auto. }
  destruct (String.eqb_spec tag "birchmurnaghan").
  { inversion E; subst form.
    apply energy_reference_of_pressure with (P := curve birch_murnaghan p 3 false true) (k1 := k1) (k2 := K2 (left_by birch_murnaghan p 3 false true)); auto.
    - unfold ev_birchmurnaghan. cbv zeta. rewrite ratio_1, Rpower_1_l by assumption. field.
    - intros. destruct (C18_birch_murnaghan p V A H) as (-> & _). now apply bm_derive.
    - apply (C16_birch_murnaghan p 3 false true A). }
  destruct (String.eqb_spec tag "vinet").
  { inversion E; subst form.
    eapply energy_reference_of_pressure with (P := curve vinet p 3 false true) (k1 := k1); auto.
    - unfold ev_vinet. cbv zeta. rewrite ratio_1, Rpower_1_l by assumption.
      replace (-3 * (k1 - 1) * (1 - 1) / 2) with 0 by field. rewrite exp_0. field. lra.
    - intros. destruct (C18_vinet p V A H) as (-> & _). now apply vinet_derive.
    - apply (C16_vinet p 3 false true A). }
  destruct (String.eqb_spec tag "pouriertarantola"); [|discriminate].
  inversion E; subst form.
  apply energy_reference_of_pressure with (P := curve natural_strain p 3 false true) (k1 := k1) (k2 := K2 (left_by natural_strain p 3 false true)); auto.
  - unfold ev_pouriertarantola. cbv zeta. rewrite ratio_1, Rpower_1_l, ln_1 by assumption. field.
  - intros. destruct (C18_natural_strain p V A H) as (-> & _). now apply pt_derive.
  - apply (C16_natural_strain p 3 false true A).
Qed.

(** For Murnaghan and Vinet with K0 > 0 the reference volume is the strict
    global minimum over all positive volumes. *)
Lemma global_minimum (E dE : R -> R) v0 :
  0 < v0 -> (forall V, 0 < V -> is_derive E V (dE V)) ->
  (forall V, 0 < V < v0 -> dE V < 0) -> (forall V, v0 < V -> 0 < dE V) ->
  forall V, 0 < V -> V <> v0 -> E v0 < E V.
Proof.
  intros Hv D L G V HV N.
  assert (M : forall a b, 0 < a -> a < b -> exists c, a < c < b /\ E b - E a = dE c * (b - a)).
  { intros a b Ha Hab. destruct (MVT_cor2 E dE a b Hab) as (c & Ec & Hc).
    - intros c Hc. apply is_derive_Reals, D. lra.
    - exists c. split; [exact Hc|exact Ec]. }
  destruct (Rdichotomy _ _ N) as [C|C].
  - destruct (M V v0 HV C) as (c & Hc & Ec). assert (dE c < 0) by (apply L; lra). nra.
  - destruct (M v0 V Hv C) as (c & Hc & Ec). assert (0 < dE c) by (apply G; lra). nra.
Qed.

Lemma ratio_gt v0 V : 0 < V < v0 -> 1 < v0 / V.
Proof. intros. apply Rmult_lt_reg_r with V; [lra|]. field_simplify; lra. Qed.
Lemma ratio_lt v0 V : 0 < v0 < V -> 0 < v0 / V < 1.
Proof.
  intros. split; [apply Rdiv_lt_0_compat; lra|]. apply Rmult_lt_reg_r with V; [lra|]. field_simplify; lra.
Qed.
Lemma ln_pos r : 1 < r -> 0 < ln r.
Proof. intros. rewrite <- ln_1. apply ln_increasing; lra. Qed.
Lemma ln_neg r : 0 < r < 1 -> ln r < 0.
Proof. intros. rewrite <- ln_1. apply ln_increasing; lra. Qed.
Lemma exp_gt_1 y : 0 < y -> 1 < exp y.
Proof. intros. rewrite <- exp_0. now apply exp_increasing. Qed.
Lemma exp_lt_1 y : y < 0 -> exp y < 1.
Proof. intros. rewrite <- exp_0. now apply exp_increasing. Qed.

Theorem C19_global_minimum tag form E0 k0 k1 v0 V :
  tag = "murnaghan"%string \/ tag = "vinet"%string ->
  0 < v0 -> 0 < k0 -> k1 <> 0 -> k1 <> 1 -> 0 < V -> V <> v0 ->
  set_eos_type tag = Some form -> E0 < form V E0 k0 k1 v0.
Proof.
  intros C Hv Hk H0 H1 HV N E.
  assert (R : form v0 E0 k0 k1 v0 = E0).
  { apply (C19_minimum tag form E0 k0 k1 v0); try assumption. lra. }
  rewrite <- R at 1. clear R.
  destruct C; subst tag; cbn in E; inversion E; subst form; clear E.
  - apply (global_minimum (fun V => ev_murnaghan V E0 k0 k1 v0) (fun V => - murnaghan_textbook k0 k1 v0 V)); try assumption.
    + intros. now apply murnaghan_derive.
    + intros W HW. apply Ropp_lt_gt_0_contravar. unfold murnaghan_textbook, Rpower.
      assert (L : 0 < ln (v0 / W)) by (apply ln_pos, ratio_gt; assumption).
      destruct (Rdichotomy _ _ H0) as [S|S].
      * assert (exp (k1 * ln (v0 / W)) < 1) by (apply exp_lt_1; nra).
        replace (k0 / k1 * (exp (k1 * ln (v0 / W)) - 1)) with (k0 / - k1 * (1 - exp (k1 * ln (v0 / W)))) by (field; lra).
        apply Rmult_lt_0_compat; [apply Rdiv_lt_0_compat; lra|lra].
      * assert (1 < exp (k1 * ln (v0 / W))) by (apply exp_gt_1; nra).
        apply Rmult_lt_0_compat; [apply Rdiv_lt_0_compat; lra|lra].
    + intros W HW. apply Ropp_0_gt_lt_contravar. unfold murnaghan_textbook, Rpower.
      assert (L : ln (v0 / W) < 0) by (apply ln_neg, ratio_lt; lra).
      destruct (Rdichotomy _ _ H0) as [S|S].
      * assert (1 < exp (k1 * ln (v0 / W))) by (apply exp_gt_1; nra).
        replace (k0 / k1 * (exp (k1 * ln (v0 / W)) - 1)) with (- (k0 / - k1 * (exp (k1 * ln (v0 / W)) - 1))) by (field; lra).
        apply Ropp_lt_gt_0_contravar, Rmult_lt_0_compat; [apply Rdiv_lt_0_compat; lra|lra].
      * assert (exp (k1 * ln (v0 / W)) < 1) by (apply exp_lt_1; nra).
        replace (k0 / k1 * (exp (k1 * ln (v0 / W)) - 1)) with (- (k0 / k1 * (1 - exp (k1 * ln (v0 / W))))) by (field; lra).
        apply Ropp_lt_gt_0_contravar, Rmult_lt_0_compat; [apply Rdiv_lt_0_compat; lra|lra].
  - apply (global_minimum (fun V => ev_vinet V E0 k0 k1 v0) (fun V => - vinet_textbook k0 k1 v0 V)); try assumption.
    + intros. now apply vinet_derive.
    + intros W HW. apply Ropp_lt_gt_0_contravar. unfold vinet_textbook. cbv zeta.
      assert (X : 0 < Rpower (W / v0) (1 / 3) < 1).
      { split; [apply exp_pos|]. apply exp_lt_1. assert (ln (W / v0) < 0) by (apply ln_neg, ratio_lt; lra). lra. }
      set (X' := Rpower (W / v0) (1 / 3)) in *. apply Rmult_lt_0_compat; [|apply exp_pos].
      apply Rdiv_lt_0_compat; nra.
    + intros W HW. apply Ropp_0_gt_lt_contravar. unfold vinet_textbook. cbv zeta.
      assert (X : 1 < Rpower (W / v0) (1 / 3)).
      { apply exp_gt_1. assert (0 < ln (W / v0)) by (apply ln_pos, ratio_gt; lra). lra. }
      set (X' := Rpower (W / v0) (1 / 3)) in *.
      set (F := exp _). assert (0 < F) by apply exp_pos.
      replace (3 * k0 * (1 - X') / X' ^ 2 * F) with (- (3 * k0 * (X' - 1) / X' ^ 2 * F)) by (field; lra).
      apply Ropp_lt_gt_0_contravar. apply Rmult_lt_0_compat; [|assumption].
      apply Rdiv_lt_0_compat; nra.
Qed.

(** ** The reported pressure *)
(** Murnaghan and Vinet: exactly -dE/dV, at every volume. *)
Theorem C19_pressure_consistent tag form E0 k0 k1 v0 V :
  tag = "murnaghan"%string \/ tag = "vinet"%string ->
  0 < v0 -> 0 < V -> k1 <> 0 -> k1 <> 1 -> set_eos_type tag = Some form ->
  exists P, pressure tag E0 k0 k1 v0 V = Some P /\ is_derive (fun V => form V E0 k0 k1 v0) V (- P).
Proof.
  intros C Hv HV H0 H1 E. destruct C; subst tag; cbn in E; inversion E; subst form.
  - exists (murnaghan_textbook k0 k1 v0 V). split; [reflexivity|]. now apply murnaghan_derive.
  - exists (vinet_textbook k0 k1 v0 V). split; [|now apply vinet_derive].
    change (Some (snd (vinet {| K0 := k0; K1 := k1; K2 := 0; V0 := v0 |} V 3%nat false false)) = Some (vinet_textbook k0 k1 v0 V)).
    f_equal. unfold vinet, vinet_pars, second_order, vinet_textbook. cbn [andb Nat.eqb Nat.ltb Nat.leb set_K2 K0 K1 K2 V0 snd]. set (X := Rpower (V / v0) (1 / 3)).
    replace (1 - (1 - X)) with X by ring. unfold Rdiv. ring.
Qed.

(** Birch-Murnaghan and Poirier-Tarantola: the exact error. *)
Theorem C19_pressure_error tag E0 k0 k1 v0 V P3 :
  tag = "birchmurnaghan"%string \/ tag = "pouriertarantola"%string ->
  0 < v0 -> 0 < V -> third_order_pressure k0 k1 v0 V tag P3 ->
  exists c s, 0 < c /\ (s = 0 <-> V = v0) /\ (0 < s <-> V < v0) /\
    pressure tag E0 k0 k1 v0 V = Some (P3 + k0 * c * s ^ 3).
Proof.
  intros C Hv HV T.
  assert (SGN : (ln (v0 / V) = 0 <-> V = v0) /\ (0 < ln (v0 / V) <-> V < v0)).
  { destruct (Rtotal_order V v0) as [L|[->|G]].
    - assert (0 < ln (v0 / V)) by (apply ln_pos, ratio_gt; lra). split; split; lra.
    - rewrite ratio_1, ln_1 by assumption. split; split; lra.
    - assert (ln (v0 / V) < 0) by (apply ln_neg, ratio_lt; lra). split; split; lra. }
  destruct SGN as (S0 & S1).
  destruct C; subst tag; inversion T; subst P3; clear T.
  - set (f := (Rpower (v0 / V) (2 / 3) - 1) / 2).
    exists (9 / 2 * ((k1 - 4) * (k1 - 3) + 35 / 9) * Rpower (v0 / V) (5 / 3)), f.
    assert (F : (f = 0 <-> V = v0) /\ (0 < f <-> V < v0)).
    { unfold f, Rpower. destruct (Rtotal_order (ln (v0 / V)) 0) as [L|[Z|G]].
      - assert (exp (2 / 3 * ln (v0 / V)) < 1) by (apply exp_lt_1; lra). split; split; lra.
      - rewrite Z, Rmult_0_r, exp_0. split; split; lra.
      - assert (1 < exp (2 / 3 * ln (v0 / V))) by (apply exp_gt_1; lra). split; split; lra. }
    split; [|split; [tauto|split; [tauto|]]].
    + apply Rmult_lt_0_compat; [|apply exp_pos]. pose proof (pow2_ge_0 (k1 - 7 / 2)). nra.
    + unfold pressure. cbn [set_pv_eos_type String.eqb Ascii.eqb Bool.eqb option_map].
      f_equal. unfold birch_murnaghan, bm_pars, second_order, bm3_textbook, bm2_textbook. cbn [andb Nat.eqb Nat.ltb Nat.leb set_K2 K0 K1 K2 V0 snd].
      replace (1 + 2 * (1 / 2 * (Rpower (v0 / V) (2 / 3) - 1))) with (Rpower (v0 / V) (2 / 3)) by field.
      rewrite Rpower_mult. replace (2 / 3 * (5 / 2)) with (5 / 3) by field.
      replace (7 / 3) with (2 / 3 + 5 / 3) by field. rewrite Rpower_plus. unfold f.
      generalize (Rpower (v0 / V) (2 / 3)) (Rpower (v0 / V) (5 / 3)). intros. field.
  - exists ((1 + (k1 - 2) + (k1 - 2) ^ 2) / 6 * (v0 / V)), (ln (v0 / V)).
    split; [|split; [exact S0|split; [exact S1|]]].
    + pose proof (pow2_ge_0 (k1 - 3 / 2)). apply Rmult_lt_0_compat; [nra|]. apply Rdiv_lt_0_compat; assumption.
    + unfold pressure. cbn [set_pv_eos_type String.eqb Ascii.eqb Bool.eqb option_map].
      f_equal. unfold natural_strain, ns_pars, second_order, ns3_textbook, ns2_textbook. cbn [andb Nat.eqb Nat.ltb Nat.leb set_K2 K0 K1 K2 V0 snd]. set (x := ln (v0 / V)). field. lra.
Qed.
(** So away from V0 the reported pressure is never -dE/dV: too high in
    compression, too low in expansion, for every K'. *)
Theorem C19_pressure_inconsistent tag form E0 k0 k1 v0 V P D :
  tag = "birchmurnaghan"%string \/ tag = "pouriertarantola"%string ->
  0 < v0 -> 0 < V -> 0 < k0 -> V <> v0 -> set_eos_type tag = Some form ->
  is_derive (fun V => form V E0 k0 k1 v0) V D -> pressure tag E0 k0 k1 v0 V = Some P ->
  P <> - D /\ (V < v0 -> - D < P) /\ (v0 < V -> P < - D).
Proof.
  intros C Hv HV Hk N E DD EP.
  assert (T : exists P3, third_order_pressure k0 k1 v0 V tag P3 /\ is_derive (fun V => form V E0 k0 k1 v0) V (- P3)).
  { destruct C; subst tag; cbn in E; inversion E; subst form.
    - exists (bm3_textbook k0 k1 v0 V). split; [constructor|]. now apply bm_derive.
    - exists (ns3_textbook k0 k1 v0 V). split; [constructor|]. now apply pt_derive. }
  destruct T as (P3 & T & D3).
  assert (ED : D = - P3).
  { rewrite <- (is_derive_unique _ _ _ DD). apply is_derive_unique. exact D3. }
  destruct (C19_pressure_error tag E0 k0 k1 v0 V P3 C Hv HV T) as (c & s & Hc & S0 & S1 & EP').
  rewrite EP in EP'. inversion EP' as [EP0]. subst D. rewrite Ropp_involutive.
  assert (Hkc : 0 < k0 * c) by (apply Rmult_lt_0_compat; assumption).
  destruct (Rtotal_order V v0) as [L|[?|G]]; [|contradiction|].
  - assert (0 < s) by tauto. assert (0 < s ^ 3) by (apply pow_lt; assumption).
    assert (0 < k0 * c * s ^ 3) by (apply Rmult_lt_0_compat; assumption). split; [|split]; lra.
  - assert (s < 0).
    { destruct (Rtotal_order s 0) as [?|[?|Q]]; [assumption|exfalso; apply N; tauto|]. apply S1 in Q. lra. }
    assert (0 < (- s) ^ 3) by (apply pow_lt; lra).
    assert (0 < k0 * c * (- s) ^ 3) by (apply Rmult_lt_0_compat; assumption).
    assert (k0 * c * s ^ 3 = - (k0 * c * (- s) ^ 3)) by ring.
    split; [|split]; lra.
Qed.

(** Non-vacuity. *)
Example C19_instance : exists form, set_eos_type "vinet" = Some form /\
  energy_reference (fun V => form V (-5) 170 (41 / 10) 1500) (-5) 170 1500 /\
  -5 < form 1400 (-5) 170 (41 / 10) 1500.
Proof.
  exists ev_vinet. split; [reflexivity|]. split.
  - apply (C19_minimum "vinet"); try lra. reflexivity.
  - apply (C19_global_minimum "vinet"); auto; lra.
Qed.
Example C19_bm_error : exists P, pressure "birchmurnaghan" 0 170 4 1500 1400 = Some P /\
  bm3_textbook 170 4 1500 1400 < P.
Proof.
  destruct (C19_pressure_error "birchmurnaghan" 0 170 4 1500 1400 (bm3_textbook 170 4 1500 1400))
    as (c & s & Hc & _ & S & ->); [auto|lra|lra|constructor|].
  eexists. split; [reflexivity|]. assert (0 < s) by (apply S; lra).
  assert (0 < s ^ 3) by (apply pow_lt; assumption).
  assert (0 < 170 * c * s ^ 3) by (apply Rmult_lt_0_compat; lra). lra.
Qed.

Print Assumptions C19_derivative_is_minus_pressure.
Print Assumptions C19_tags.
Print Assumptions C19_minimum.
Print Assumptions C19_global_minimum.
Print Assumptions C19_pressure_consistent.
Print Assumptions C19_pressure_error.
Print Assumptions C19_pressure_inconsistent.
