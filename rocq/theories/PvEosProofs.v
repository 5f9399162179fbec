(** Lemmas for the pressure-volume equations of state. Everything is reduced
    to the logarithmic compression x = ln (V0/V), for which -V d/dV = d/dx. *)
From Coq Require Import Reals Lra Lia Psatz Bool Arith.
From Coquelicot Require Import Coquelicot.
From Verif Require Import PvEosModel PvEosSpec.
Open Scope R_scope.

Lemma Rpower_exp v0 V a : 0 < v0 -> 0 < V -> Rpower (v0 / V) a = exp (a * ln (v0 / V)).
Proof. reflexivity. Qed.
Lemma ln_inv_ratio v0 V : 0 < v0 -> 0 < V -> ln (V / v0) = - ln (v0 / V).
Proof.
  intros. rewrite <- ln_Rinv by (apply Rdiv_lt_0_compat; assumption).
  f_equal. field. lra.
Qed.
Lemma exp_ln_ratio v0 V : 0 < v0 -> 0 < V -> exp (ln (v0 / V)) = v0 / V.
Proof. intros. apply exp_ln. apply Rdiv_lt_0_compat; assumption. Qed.

Lemma locally_pos v0 : 0 < v0 -> locally v0 (fun V => 0 < V).
Proof.
  intros H. exists (mkposreal v0 H). intros y Hy.
  unfold ball in Hy; simpl in Hy; unfold AbsRing_ball, abs, minus, plus, opp in Hy; simpl in Hy.
  apply Rabs_def2 in Hy. simpl in Hy. lra.
Qed.

(** Chain rule for the logarithmic compression. *)
Lemma x_derive v0 V : 0 < v0 -> 0 < V -> is_derive (fun V => ln (v0 / V)) V (- / V).
Proof.
  intros H0 HV. auto_derive.
  - repeat split; [lra|]. apply Rdiv_lt_0_compat; assumption.
  - field. lra.
Qed.
Lemma comp_derive v0 V (g : R -> R) dg : 0 < v0 -> 0 < V ->
  is_derive g (ln (v0 / V)) dg -> is_derive (fun V => g (ln (v0 / V))) V (- dg / V).
Proof.
  intros H0 HV D.
  replace (- dg / V) with (- / V * dg) by (unfold Rdiv; ring).
  apply (is_derive_comp g (fun V => ln (v0 / V))); [exact D|]. now apply x_derive.
Qed.
Lemma locally_x v0 (Q : R -> Prop) : 0 < v0 -> locally 0 Q -> locally v0 (fun V => Q (ln (v0 / V))).
Proof.
  intros H0 L.
  assert (C : continuous (fun V => ln (v0 / V)) v0).
  { apply (@ex_derive_continuous R_AbsRing R_NormedModule). exists (- / v0). now apply x_derive. }
  apply C. replace (ln (v0 / v0)) with 0; [exact L|].
  unfold Rdiv. rewrite Rinv_r by lra. symmetry. apply ln_1.
Qed.

(** Reading the reference parameters off the derivatives in x. *)
Lemma reference_state_x (P g g1 g2 g3 : R -> R) v0 k0 k1 k2 :
  0 < v0 -> k0 <> 0 ->
  (forall V, 0 < V -> P V = g (ln (v0 / V))) ->
  locally 0 (fun x => is_derive g x (g1 x) /\ is_derive g1 x (g2 x) /\ is_derive g2 x (g3 x)) ->
  g 0 = 0 -> g1 0 = k0 -> g2 0 = k1 * k0 -> g3 0 = k2 * k0 ^ 2 + k1 ^ 2 * k0 ->
  reference_state P v0 k0 k1 k2.
Proof.
  intros Hv Hk E L G0 G1 G2 G3.
  assert (X0 : ln (v0 / v0) = 0) by (unfold Rdiv; rewrite Rinv_r by lra; apply ln_1).
  assert (NZ : locally 0 (fun x => g1 x <> 0)).
  { assert (C : continuous g1 0).
    { apply (@ex_derive_continuous R_AbsRing R_NormedModule). exists (g2 0). apply locally_singleton in L. apply L. }
    apply (C (fun y => y <> 0)). exists (mkposreal (Rabs k0) (Rabs_pos_lt _ Hk)).
    intros y Hy Hy0. subst y.
    unfold ball in Hy; simpl in Hy; unfold AbsRing_ball, abs, minus, plus, opp in Hy; simpl in Hy.
    rewrite G1, Rplus_0_l, Rabs_Ropp in Hy. lra. }
  assert (DP : forall V, 0 < V -> forall d, is_derive g (ln (v0 / V)) d -> is_derive P V (- d / V)).
  { intros V HV d Hd. apply is_derive_ext_loc with (fun V => g (ln (v0 / V))).
    - apply filter_imp with (fun V => 0 < V); [intros; symmetry; auto|]. now apply locally_pos.
    - now apply comp_derive. }
  pose proof (locally_pos v0 Hv) as LP.
  pose proof (locally_x v0 _ Hv L) as LX. pose proof (locally_x v0 _ Hv NZ) as NX.
  split; [rewrite E by exact Hv; rewrite X0; exact G0|].
  exists (fun V => g1 (ln (v0 / V))), (fun V => g2 (ln (v0 / V)) / g1 (ln (v0 / V))),
    (fun V => (g3 (ln (v0 / V)) * g1 (ln (v0 / V)) - g2 (ln (v0 / V)) ^ 2) / g1 (ln (v0 / V)) ^ 3).
  split; [|split; [|split; [|split; [|split]]]].
  - unfold bulk_modulus_near, pressure_derivative_near. generalize (filter_and _ _ LP LX). apply filter_imp. intros V (HV & D & _).
    now apply DP.
  - unfold bulk_modulus_near, pressure_derivative_near. generalize (filter_and _ _ (filter_and _ _ LP LX) NX). apply filter_imp.
    intros V ((HV & D & D1 & _) & N). exists (- g1 (ln (v0 / V)) / V). split; [now apply DP|].
    replace (g2 (ln (v0 / V)) / g1 (ln (v0 / V)) * (- g1 (ln (v0 / V)) / V))
      with (- g2 (ln (v0 / V)) / V) by (field; lra).
    now apply comp_derive.
  - unfold bulk_modulus_near, pressure_derivative_near. generalize (filter_and _ _ (filter_and _ _ LP LX) NX). apply filter_imp.
    intros V ((HV & D & D1 & D2) & N). exists (- g1 (ln (v0 / V)) / V). split; [now apply DP|].
    set (x := ln (v0 / V)) in *.
    replace ((g3 x * g1 x - g2 x ^ 2) / g1 x ^ 3 * (- g1 x / V))
      with (- ((g3 x * g1 x - g2 x ^ 2) / g1 x ^ 2) / V) by (field; lra).
    apply (comp_derive v0 V (fun x => g2 x / g1 x)); try assumption. fold x.
    replace ((g3 x * g1 x - g2 x ^ 2) / g1 x ^ 2) with ((g3 x * g1 x - g2 x * g2 x) / g1 x ^ 2) by (f_equal; ring).
    apply is_derive_div; assumption.
  - now rewrite X0.
  - rewrite X0, G1, G2. field. exact Hk.
  - rewrite X0, G1, G2, G3. field. exact Hk.
Qed.

Lemma locally_all (Q : R -> Prop) x : (forall y, Q y) -> locally x Q.
Proof. intros H. apply filter_forall. exact H. Qed.

(** A curve has at most one set of reference parameters. *)
Lemma reference_state_unique P v0 k0 k1 k2 k0' k1' k2' :
  0 < v0 -> k0 <> 0 ->
  reference_state P v0 k0 k1 k2 -> reference_state P v0 k0' k1' k2' ->
  k0 = k0' /\ k1 = k1' /\ k2 = k2'.
Proof.
  intros Hv Hk (_ & A & A1 & A2 & BA & PA1 & PA2 & EA & EA1 & EA2)
             (_ & B & B1 & B2 & BB & PB1 & PB2 & EB & EB1 & EB2).
  pose proof (locally_pos v0 Hv) as LP.
  assert (AB : locally v0 (fun V => A V = B V)).
  { generalize (filter_and _ _ LP (filter_and _ _ BA BB)). apply filter_imp.
    intros V (HV & D & D'). apply is_derive_unique in D. apply is_derive_unique in D'.
    rewrite D in D'. apply (f_equal (fun z => - z * V)) in D'. field_simplify in D'; lra. }
  assert (E0 : k0 = k0') by (rewrite <- EA, <- EB; exact (locally_singleton _ _ AB)).
  assert (ANZ : locally v0 (fun V => A V <> 0)).
  { assert (C : continuous A v0).
    { apply (@ex_derive_continuous R_AbsRing R_NormedModule).
      apply locally_singleton in PA1 as (dP & _ & D). eexists; exact D. }
    apply (C (fun y => y <> 0)). exists (mkposreal (Rabs k0) (Rabs_pos_lt _ Hk)).
    intros y Hy Hy0. subst y.
    unfold ball in Hy; simpl in Hy; unfold AbsRing_ball, abs, minus, plus, opp in Hy; simpl in Hy.
    rewrite EA, Rplus_0_l, Rabs_Ropp in Hy. lra. }
  assert (AB1 : locally v0 (fun V => A1 V = B1 V)).
  { generalize (filter_and _ _ (filter_and _ _ (filter_and _ _ LP ANZ) (filter_and _ _ BA (locally_locally _ _ AB)))
                  (filter_and _ _ PA1 PB1)).
    apply filter_imp. intros V (((HV & NZ) & D & LAB) & (d & Dd & DA) & (d' & Dd' & DB)).
    apply is_derive_ext_loc with (1 := LAB) in DA.
    apply is_derive_unique in DA. apply is_derive_unique in DB. rewrite DA in DB.
    apply is_derive_unique in D. apply is_derive_unique in Dd. apply is_derive_unique in Dd'.
    rewrite D in Dd, Dd'. subst d d'. apply Rmult_eq_reg_r in DB; [exact DB|].
    unfold Rdiv. apply Rmult_integral_contrapositive_currified; [lra|]. apply Rinv_neq_0_compat; lra. }
  assert (AB2 : A2 v0 = B2 v0).
  { apply locally_singleton in BA. apply locally_singleton in PA2 as (d & Dd & DA).
    apply locally_singleton in PB2 as (d' & Dd' & DB).
    apply is_derive_ext_loc with (1 := AB1) in DA.
    apply is_derive_unique in DA. apply is_derive_unique in DB. rewrite DA in DB.
    apply is_derive_unique in BA. apply is_derive_unique in Dd. apply is_derive_unique in Dd'.
    rewrite BA in Dd, Dd'. subst d d'. apply Rmult_eq_reg_r in DB; [exact DB|].
    rewrite EA. unfold Rdiv. apply Rmult_integral_contrapositive_currified; [lra|]. apply Rinv_neq_0_compat; lra. }
  split; [exact E0|]. split.
  - rewrite <- EA1, <- EB1. exact (locally_singleton _ _ AB1).
  - rewrite <- EA2, <- EB2. exact AB2.
Qed.

(** Sums of four exponentials (Birch-Murnaghan, Murnaghan). *)
Definition es (c1 c2 c3 c4 k1 k2 k3 k4 x : R) : R :=
  c1 * exp (k1 * x) + c2 * exp (k2 * x) + c3 * exp (k3 * x) + c4 * exp (k4 * x).
Lemma es_derive c1 c2 c3 c4 k1 k2 k3 k4 x :
  is_derive (es c1 c2 c3 c4 k1 k2 k3 k4) x (es (c1 * k1) (c2 * k2) (c3 * k3) (c4 * k4) k1 k2 k3 k4 x).
Proof. unfold es. auto_derive; [exact I|]. ring. Qed.
Lemma es_0 c1 c2 c3 c4 k1 k2 k3 k4 : es c1 c2 c3 c4 k1 k2 k3 k4 0 = c1 + c2 + c3 + c4.
Proof. unfold es. rewrite !Rmult_0_r, exp_0. ring. Qed.

Lemma reference_state_es P c1 c2 c3 c4 e1 e2 e3 e4 v0 k0 k1 k2 :
  0 < v0 -> k0 <> 0 ->
  (forall V, 0 < V -> P V = es c1 c2 c3 c4 e1 e2 e3 e4 (ln (v0 / V))) ->
  c1 + c2 + c3 + c4 = 0 ->
  c1 * e1 + c2 * e2 + c3 * e3 + c4 * e4 = k0 ->
  c1 * e1 ^ 2 + c2 * e2 ^ 2 + c3 * e3 ^ 2 + c4 * e4 ^ 2 = k1 * k0 ->
  c1 * e1 ^ 3 + c2 * e2 ^ 3 + c3 * e3 ^ 3 + c4 * e4 ^ 3 = k2 * k0 ^ 2 + k1 ^ 2 * k0 ->
  reference_state P v0 k0 k1 k2.
Proof.
  intros Hv Hk E A0 A1 A2 A3.
  apply (reference_state_x P (es c1 c2 c3 c4 e1 e2 e3 e4)
    (es (c1 * e1) (c2 * e2) (c3 * e3) (c4 * e4) e1 e2 e3 e4)
    (es (c1 * e1 * e1) (c2 * e2 * e2) (c3 * e3 * e3) (c4 * e4 * e4) e1 e2 e3 e4)
    (es (c1 * e1 * e1 * e1) (c2 * e2 * e2 * e2) (c3 * e3 * e3 * e3) (c4 * e4 * e4 * e4) e1 e2 e3 e4));
    try assumption; rewrite ?es_0; try assumption.
  - apply locally_all; intros x; repeat split; apply es_derive.
  - rewrite <- A2; ring.
  - rewrite <- A3; ring.
Qed.

Section Curves.
Variables (k0 k1 k2 v0 : R).
Hypothesis Hv : 0 < v0.
Hypothesis Hk : k0 <> 0.

Lemma murnaghan_state : k1 <> 0 ->
  reference_state (fun V => k0 / k1 * (Rpower (v0 / V) k1 - 1)) v0 k0 k1 0.
Proof.
  intros Hk1.
  apply (reference_state_es _ (k0 / k1) (- (k0 / k1)) 0 0 k1 0 0 0); try assumption.
  - intros V HV. unfold es, Rpower. rewrite !Rmult_0_l, exp_0. ring.
  - ring.
  - field; assumption.
  - field; assumption.
  - field; assumption.
Qed.

Definition bm_curve (V : R) : R :=
  let fE := 1 / 2 * (Rpower (v0 / V) (2 / 3) - 1) in
  3 * k0 * fE * Rpower (1 + 2 * fE) (5 / 2) *
      (1 + 3 / 2 * (k1 - 4) * fE + 3 / 2 * (k0 * k2 + (k1 - 4) * (k1 - 3) + 35 / 9) * fE ^ 2).

(** The Eulerian-strain expansion as a polynomial in exponentials of x. *)
Lemma bm_es V : 0 < V ->
  let A := 3 / 2 * (k1 - 4) in
  let B := 3 / 2 * (k0 * k2 + (k1 - 4) * (k1 - 3) + 35 / 9) in
  bm_curve V = es (3 * k0 * (- 1 / 2 + A / 4 - B / 8)) (3 * k0 * (1 / 2 - A / 2 + 3 * B / 8))
                  (3 * k0 * (A / 4 - 3 * B / 8)) (3 * k0 * (B / 8))
                  (5 / 3) (7 / 3) 3 (11 / 3) (ln (v0 / V)).
Proof.
  intros HV A B. unfold bm_curve. fold A B. cbv zeta.
  set (x := ln (v0 / V)).
  replace (Rpower (v0 / V) (2 / 3)) with (exp (2 / 3 * x)) by reflexivity.
  replace (1 + 2 * (1 / 2 * (exp (2 / 3 * x) - 1))) with (exp (2 / 3 * x)) by field.
  unfold Rpower at 1. rewrite ln_exp.
  replace (5 / 2 * (2 / 3 * x)) with (5 / 3 * x) by field.
  unfold es.
  replace (7 / 3 * x) with (5 / 3 * x + 2 / 3 * x) by field.
  replace (3 * x) with (5 / 3 * x + (2 / 3 * x + 2 / 3 * x)) by field.
  replace (11 / 3 * x) with (5 / 3 * x + (2 / 3 * x + (2 / 3 * x + 2 / 3 * x))) by field.
  rewrite !exp_plus. generalize (exp (5 / 3 * x)) (exp (2 / 3 * x)). intros. field.
Qed.
Lemma bm_state : reference_state bm_curve v0 k0 k1 k2.
Proof.
  eapply reference_state_es; try assumption.
  - intros V HV. rewrite (bm_es V HV). reflexivity.
  - field.
  - field.
  - field.
  - field.
Qed.

Definition ns_curve (V : R) : R :=
  let fN := 1 / 3 * ln (v0 / V) in
  let a := 3 / 2 * (k1 - 2) in
  let b := 3 / 2 * (1 + k2 * k0 + (k1 - 2) + (k1 - 2) ^ 2) in
  3 * k0 * (v0 / V) * fN * (1 + a * fN + b * fN ^ 2).
Lemma ns_state : reference_state ns_curve v0 k0 k1 k2.
Proof.
  set (a := (k1 - 2) / 2). set (b := (1 + k2 * k0 + (k1 - 2) + (k1 - 2) ^ 2) / 6).
  set (q := fun x => k0 * (x + a * x ^ 2 + b * x ^ 3)).
  set (q1 := fun x => k0 * (1 + 2 * a * x + 3 * b * x ^ 2)).
  set (q2 := fun x => k0 * (2 * a + 6 * b * x)).
  set (q3 := fun x : R => k0 * (6 * b)).
  apply (reference_state_x _ (fun x => exp x * q x) (fun x => exp x * (q x + q1 x))
           (fun x => exp x * (q x + 2 * q1 x + q2 x)) (fun x => exp x * (q x + 3 * q1 x + 3 * q2 x + q3 x)));
    try assumption.
  - intros V HV. rewrite exp_ln_ratio by assumption. unfold ns_curve, q, a, b. cbv zeta. field. lra.
  - apply locally_all. intros x. unfold q, q1, q2, q3.
    split; [|split]; auto_derive; try exact I; ring.
  - unfold q. ring.
  - unfold q, q1. rewrite exp_0. ring.
  - unfold q, q1, q2, a. rewrite exp_0. field.
  - unfold q, q1, q2, q3, a, b. rewrite exp_0. field.
Qed.

Definition vinet_curve (V : R) : R :=
  let fV := 1 - Rpower (V / v0) (1 / 3) in
  let eta := 3 / 2 * (k1 - 1) in
  3 * k0 * (fV / (1 - fV) ^ 2) * exp (eta * fV).
Lemma vinet_x V : 0 < V ->
  vinet_curve V = 3 * k0 * (exp (2 / 3 * ln (v0 / V)) - exp (1 / 3 * ln (v0 / V)))
                  * exp (3 / 2 * (k1 - 1) * (1 - exp (- (1 / 3) * ln (v0 / V)))).
Proof.
  intros HV. unfold vinet_curve. cbv zeta. unfold Rpower. rewrite ln_inv_ratio by assumption.
  set (x := ln (v0 / V)).
  replace (1 / 3 * - x) with (- (1 / 3) * x) by ring.
  set (w := exp (3 / 2 * (k1 - 1) * (1 - exp (- (1 / 3) * x)))).
  replace (- (1 / 3) * x) with (- (1 / 3 * x)) by ring. rewrite exp_Ropp.
  replace (2 / 3 * x) with (1 / 3 * x + 1 / 3 * x) by field. rewrite exp_plus.
  pose proof (exp_pos (1 / 3 * x)). field. lra.
Qed.
(** The true K'' of the Vinet curve. *)
Lemma vinet_state :
  reference_state vinet_curve v0 k0 k1 (-1 / k0 * ((k1 / 2) ^ 2 + k1 / 2 - 19 / 36)).
Proof.
  set (h := 3 / 2 * (k1 - 1)).
  set (E2 := fun x => exp (2 / 3 * x)). set (E1 := fun x => exp (1 / 3 * x)).
  set (u := fun x => exp (- (1 / 3) * x)). set (W := fun x => exp (h * (1 - u x))).
  assert (U1 : forall x, u x * E2 x = E1 x) by (intros; unfold u, E2, E1; rewrite <- exp_plus; f_equal; field).
  assert (U2 : forall x, u x * E1 x = 1) by (intros; unfold u, E1; rewrite <- exp_plus, <- exp_0; f_equal; field).
  apply (reference_state_x _ (fun x => 3 * k0 * (E2 x - E1 x) * W x)
           (fun x => k0 * (2 * E2 x + (h - 1) * E1 x - h) * W x)
           (fun x => k0 / 3 * (4 * E2 x + (3 * h - 1) * E1 x + h ^ 2 - h - h ^ 2 * u x) * W x)
           (fun x => k0 / 9 * (8 * E2 x + (7 * h - 1) * E1 x + h * (3 * h - 1)
                               + h ^ 3 * u x - h ^ 3 * u x ^ 2) * W x));
    try assumption.
  - intros V HV. rewrite vinet_x by assumption. reflexivity.
  - apply locally_all. intros x. specialize (U1 x). specialize (U2 x). split; [|split].
    + evar_last.
      * unfold W, E2, E1, u. auto_derive; [exact I|reflexivity].
      * fold (u x) (E1 x) (E2 x). unfold W. set (w := exp (h * (1 - u x))).
        transitivity (k0 * (2 * E2 x - E1 x + h * (u x * E2 x) - h * (u x * E1 x)) * w); [|rewrite U1, U2; ring].
        unfold w, u, E1, E2, Rdiv, Rminus. field.
    + evar_last.
      * unfold W, E2, E1, u. auto_derive; [exact I|reflexivity].
      * fold (u x) (E1 x) (E2 x). unfold W. set (w := exp (h * (1 - u x))).
        transitivity (k0 / 3 * (4 * E2 x + (h - 1) * E1 x + 2 * h * (u x * E2 x) + h * (h - 1) * (u x * E1 x) - h ^ 2 * u x) * w);
          [|rewrite U1, U2; ring].
        unfold w, u, E1, E2, Rdiv, Rminus. field.
    + evar_last.
      * unfold W, E2, E1, u. auto_derive; [exact I|reflexivity].
      * fold (u x) (E1 x) (E2 x). unfold W. set (w := exp (h * (1 - u x))).
        transitivity (k0 / 9 * (8 * E2 x + (3 * h - 1) * E1 x + h ^ 2 * u x + 4 * h * (u x * E2 x)
             + h * (3 * h - 1) * (u x * E1 x) + h * (h ^ 2 - h) * u x - h ^ 3 * u x ^ 2) * w);
          [|rewrite U1, U2; ring].
        unfold w, u, E1, E2, Rdiv, Rminus. field.
  - unfold E2, E1. rewrite !Rmult_0_r, exp_0. ring.
  - unfold E2, E1, W, u. rewrite !Rmult_0_r, exp_0, Rminus_eq_0, Rmult_0_r, exp_0. ring.
  - unfold E2, E1, W, u. rewrite !Rmult_0_r, exp_0, Rminus_eq_0, Rmult_0_r, exp_0. unfold h. field.
  - unfold E2, E1, W, u. rewrite !Rmult_0_r, exp_0, Rminus_eq_0, Rmult_0_r, exp_0. unfold h. field. assumption.
Qed.

(** A generalised Tait curve with coefficients a, b and exponent d = 1/c. *)
Lemma tait_state_gen a b d : a <> 0 -> b <> 0 -> d = k0 * a * b ->
  (d + 1) / a - 1 = k1 ->
  (d + 1) * (d + 2) / a ^ 2 - 3 * (d + 1) / a + 1 = k2 * k0 + k1 ^ 2 ->
  reference_state (fun V => 1 / b * (Rpower ((V / v0 + a - 1) / a) (- d) - 1)) v0 k0 k1 k2.
Proof.
  intros Ha Hb Hd H1 H2.
  set (z := fun x => (exp (- x) + a - 1) / a). set (w := fun x => exp (- d * ln (z x))).
  apply (reference_state_x _ (fun x => 1 / b * (w x - 1))
           (fun x => k0 * (w x / z x * exp (- x)))
           (fun x => k0 * ((d + 1) / a * w x / z x ^ 2 * exp (- x) ^ 2 - w x / z x * exp (- x)))
           (fun x => k0 * ((d + 1) * (d + 2) / a ^ 2 * w x / z x ^ 3 * exp (- x) ^ 3
                           - 3 * (d + 1) / a * w x / z x ^ 2 * exp (- x) ^ 2
                           + w x / z x * exp (- x))));
    try assumption.
  - intros V HV. unfold w, z, Rpower. rewrite exp_Ropp, exp_ln_ratio by assumption.
    replace (/ (v0 / V)) with (V / v0) by (field; lra). reflexivity.
  - assert (LZ : locally 0 (fun x => 0 < z x)).
    { assert (C : continuous z 0).
      { apply (@ex_derive_continuous R_AbsRing R_NormedModule). unfold z.
        exists (- exp (- 0) / a). auto_derive; [exact I|]. field. exact Ha. }
      apply (C (fun y => 0 < y)). replace (z 0) with 1.
      - apply locally_pos. lra.
      - unfold z. rewrite Ropp_0, exp_0. field. exact Ha. }
    generalize LZ. apply filter_imp. intros x Hz.
    assert (Hz' : 0 < (exp (- x) + a - 1) / a) by exact Hz.
    assert (NE : exp (- x) + a - 1 <> 0).
    { intros N. rewrite N in Hz'. unfold Rdiv in Hz'. lra. }
    split; [|split]; (evar_last; [unfold w, z; auto_derive; [|reflexivity]|]).
    + exact Hz'.
    + unfold w, z, Rdiv, Rminus. set (W := exp (- d * ln ((exp (- x) + a + - (1)) * / a))).
      set (e := exp (- x)) in *. rewrite Hd. field. repeat split; assumption.
    + repeat split; try exact Hz'; try lra.
    + unfold w, z, Rdiv, Rminus. set (W := exp (- d * ln ((exp (- x) + a + - (1)) * / a))).
      set (e := exp (- x)) in *. field. repeat split; assumption.
    + repeat split; try exact Hz'; try lra.
      change ((exp (- x) + a + - (1)) * / a) with ((exp (- x) + a - 1) / a). nra.
    + unfold w, z, Rdiv, Rminus. set (W := exp (- d * ln ((exp (- x) + a + - (1)) * / a))).
      set (e := exp (- x)) in *. field. repeat split; assumption.
  - unfold w, z. rewrite Ropp_0, exp_0. replace ((1 + a - 1) / a) with 1 by (field; exact Ha).
    rewrite ln_1, Rmult_0_r, exp_0. ring.
  - unfold w, z. rewrite Ropp_0, exp_0. replace ((1 + a - 1) / a) with 1 by (field; exact Ha).
    rewrite ln_1, Rmult_0_r, exp_0. field.
  - unfold w, z. rewrite Ropp_0, exp_0. replace ((1 + a - 1) / a) with 1 by (field; exact Ha).
    rewrite ln_1, Rmult_0_r, exp_0. rewrite <- H1. field. exact Ha.
  - unfold w, z. rewrite Ropp_0, exp_0. replace ((1 + a - 1) / a) with 1 by (field; exact Ha).
    rewrite ln_1, Rmult_0_r, exp_0.
    transitivity (k0 * (k2 * k0 + k1 ^ 2)); [|ring]. rewrite <- H2. field. exact Ha.
Qed.
End Curves.
