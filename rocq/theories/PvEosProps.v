(** Properties C16, C17, C18, C20 (pressure-volume equations of state). *)
From Coq Require Import Reals Lra Lia Psatz Bool Arith.
From Coquelicot Require Import Coquelicot.
From Verif Require Import PvEosModel PvEosSpec PvEosProofs.
Open Scope R_scope.

(** The curve a method evaluates, and the parameters it leaves behind. *)
Definition curve (e : eos_method) p order linear dofit : R -> R :=
  fun V => snd (e p V order linear dofit).
Definition left_by (e : eos_method) p order linear dofit : pars :=
  fst (e p (V0 p) order linear dofit).

Definition admissible (p : pars) : Prop := 0 < V0 p /\ K0 p <> 0.
(** Tait's coefficients are defined and non-degenerate. *)
Definition tait_regular (p : pars) : Prop :=
  1 + K1 p <> 0 /\ 1 + K1 p + K0 p * K2 p <> 0 /\ K1 p ^ 2 + K1 p - K0 p * K2 p <> 0.

(** K0 and V0 are never modified, and the parameters left behind do not depend
    on the volume at which the curve is evaluated. *)
Lemma pars_kept e p V o l d :
  List.In e (cons murnaghan (cons birch_murnaghan (cons natural_strain (cons vinet (cons tait nil))))) ->
  fst (e p V o l d) = left_by e p o l d /\ K0 (fst (e p V o l d)) = K0 p /\ V0 (fst (e p V o l d)) = V0 p.
Proof.
  intros I. simpl in I. unfold left_by.
  decompose [or] I; subst; try contradiction;
  unfold murnaghan, birch_murnaghan, natural_strain, vinet, tait,
    bm_pars, ns_pars, vinet_pars, tait_pars, second_order; simpl;
  destruct (d && (o =? 2)%nat)%bool; try destruct (d && (o <? 4)%nat)%bool; simpl; auto.
Qed.

(** ** C16, C17 *)
(** Murnaghan: all orders; the array keeps K', K'' is reset to 0, its true value. *)
Theorem C16_murnaghan p o l d :
  admissible p -> K1 p <> 0 ->
  let q := left_by murnaghan p o l d in
  reference_state (curve murnaghan p o l d) (V0 q) (K0 q) (K1 q) (K2 q) /\ K1 q = K1 p /\ K2 q = 0.
Proof.
  intros (Hv & Hk) H1 q. split; [|split; reflexivity].
  apply (murnaghan_state (K0 p) (K1 p) (V0 p)); assumption.
Qed.

Theorem C16_birch_murnaghan p o l d :
  admissible p ->
  let q := left_by birch_murnaghan p o l d in
  reference_state (curve birch_murnaghan p o l d) (V0 q) (K0 q) (K1 q) (K2 q).
Proof.
  intros (Hv & Hk) q.
  destruct (pars_kept birch_murnaghan p (V0 p) o l d) as (_ & E0 & EV); [simpl; auto|].
  fold (left_by birch_murnaghan p o l d) in E0, EV. fold q in E0, EV.
  apply (bm_state (K0 q) (K1 q) (K2 q) (V0 q)); congruence.
Qed.

Theorem C16_natural_strain p o l d :
  admissible p ->
  let q := left_by natural_strain p o l d in
  reference_state (curve natural_strain p o l d) (V0 q) (K0 q) (K1 q) (K2 q).
Proof.
  intros (Hv & Hk) q.
  destruct (pars_kept natural_strain p (V0 p) o l d) as (_ & E0 & EV); [simpl; auto|].
  fold (left_by natural_strain p o l d) in E0, EV. fold q in E0, EV.
  apply (ns_state (K0 q) (K1 q) (K2 q) (V0 q)); congruence.
Qed.

(** Vinet: anchored with its K', but the true K'' has 19/36. *)
Theorem C16_vinet p o l d :
  admissible p ->
  let q := left_by vinet p o l d in
  reference_state (curve vinet p o l d) (V0 q) (K0 q) (K1 q)
    (-1 / K0 q * ((K1 q / 2) ^ 2 + K1 q / 2 - 19 / 36)).
Proof.
  intros (Hv & Hk) q.
  destruct (pars_kept vinet p (V0 p) o l d) as (_ & E0 & EV); [simpl; auto 6|].
  fold (left_by vinet p o l d) in E0, EV. fold q in E0, EV.
  apply (vinet_state (K0 q) (K1 q) (V0 q)); congruence.
Qed.

Theorem C16_tait p o l d :
  admissible p ->
  let q := left_by tait p o l d in
  tait_regular q ->
  reference_state (curve tait p o l d) (V0 q) (K0 q) (K1 q) (K2 q).
Proof.
  intros (Hv & Hk) q (R1 & R2 & R3).
  destruct (pars_kept tait p (V0 p) o l d) as (_ & E0 & EV); [simpl; auto 7|].
  fold (left_by tait p o l d) in E0, EV. fold q in E0, EV.
  assert (Hk' : K0 q <> 0) by congruence. assert (Hv' : 0 < V0 q) by congruence.
  assert (EB : tait_b q = (K1 q ^ 2 + K1 q - K0 q * K2 q) / (K0 q * (1 + K1 q)))
    by (unfold tait_b; field; auto).
  change (curve tait p o l d) with
    (fun V => 1 / tait_b q * (Rpower ((V / V0 q + tait_a q - 1) / tait_a q) (-1 / tait_c q) - 1)).
  replace (-1 / tait_c q) with (- ((K1 q ^ 2 + K1 q - K0 q * K2 q) / (1 + K1 q + K0 q * K2 q)))
    by (unfold tait_c; field; auto).
  apply tait_state_gen; try assumption.
  - unfold tait_a. apply Rmult_integral_contrapositive_currified; [assumption|].
    now apply Rinv_neq_0_compat.
  - rewrite EB. apply Rmult_integral_contrapositive_currified; [assumption|].
    apply Rinv_neq_0_compat, Rmult_integral_contrapositive_currified; assumption.
  - rewrite EB. unfold tait_a. field. auto.
  - unfold tait_a. field. auto.
  - unfold tait_a. field. auto.
Qed.

(** C17: in every call, the K'' left in the array is d2K/dP2 of the evaluated
    curve - for four of the five equations... *)
Theorem C17_implied_second_derivative e p o l d k2 :
  e = murnaghan /\ K1 p <> 0 \/ e = birch_murnaghan \/ e = natural_strain \/
    e = tait /\ tait_regular (left_by tait p o l d) ->
  admissible p ->
  let q := left_by e p o l d in
  reference_state (curve e p o l d) (V0 q) (K0 q) (K1 q) k2 -> k2 = K2 q.
Proof.
  intros C A q R.
  assert (S : reference_state (curve e p o l d) (V0 q) (K0 q) (K1 q) (K2 q)).
  { decompose [or and] C; subst e.
    - now apply C16_murnaghan.
    - now apply C16_birch_murnaghan.
    - now apply C16_natural_strain.
    - now apply C16_tait. }
  assert (E : K0 q = K0 p /\ V0 q = V0 p).
  { apply pars_kept. simpl. decompose [or and] C; subst; auto 7. }
  destruct A as (Hv & Hk). destruct E as (E0 & EV).
  assert (Hv' : 0 < V0 q) by congruence. assert (Hk' : K0 q <> 0) by congruence.
  exact (proj2 (proj2 (reference_state_unique _ _ _ _ _ _ _ _ Hv' Hk' R S))).
Qed.
(** ... and for Vinet it never is, in any call. *)
Theorem C17_vinet_second_derivative_refuted p o l d :
  admissible p ->
  let q := left_by vinet p o l d in
  ~ reference_state (curve vinet p o l d) (V0 q) (K0 q) (K1 q) (K2 q).
Proof.
  intros A q R. pose proof (C16_vinet p o l d A) as S. cbv zeta in S. fold q in S.
  assert (E : K0 q = K0 p /\ V0 q = V0 p) by (apply pars_kept; simpl; auto 6).
  destruct A as (Hv & Hk). destruct E as (E0 & EV).
  assert (Hv' : 0 < V0 q) by congruence. assert (Hk' : K0 q <> 0) by congruence.
  destruct (reference_state_unique _ _ _ _ _ _ _ _ Hv' Hk' R S) as (_ & _ & E).
  assert (EK : K2 q = -1 / K0 q * ((K1 q / 2) ^ 2 + K1 q / 2 - 19 / 46)).
  { subst q. unfold left_by, vinet. simpl. unfold vinet_pars. simpl. reflexivity. }
  rewrite EK in E. apply Rmult_eq_reg_l in E; [lra|].
  apply Rmult_integral_contrapositive_currified; [lra|]. now apply Rinv_neq_0_compat.
Qed.

(** ** C18 *)
Local Ltac run := cbv [left_by curve birch_murnaghan bm_pars natural_strain ns_pars vinet vinet_pars tait tait_pars
  second_order set_K1 set_K2 fst snd andb Nat.eqb Nat.ltb Nat.leb K0 K1 K2 V0].

(** Textbook truncations, written without the strain polynomials. *)
Definition bm2_textbook k0 v0 V := 3 / 2 * k0 * (Rpower (v0 / V) (7 / 3) - Rpower (v0 / V) (5 / 3)).
Definition bm3_textbook k0 k1 v0 V :=
  bm2_textbook k0 v0 V * (1 + 3 / 4 * (k1 - 4) * (Rpower (v0 / V) (2 / 3) - 1)).
Definition ns2_textbook k0 v0 V := k0 * (v0 / V) * ln (v0 / V).
Definition ns3_textbook k0 k1 v0 V := ns2_textbook k0 v0 V * (1 + (k1 - 2) / 2 * ln (v0 / V)).
Definition murnaghan_textbook k0 k1 v0 V := k0 / k1 * (Rpower (v0 / V) k1 - 1).
(** Vinet / Rydberg in the linear ratio X = (V/V0)^(1/3). *)
Definition vinet_textbook k0 k1 v0 V :=
  let X := Rpower (V / v0) (1 / 3) in 3 * k0 * (1 - X) / X ^ 2 * exp (3 / 2 * (k1 - 1) * (1 - X)).

Lemma Rpower_ratio v0 V a c : Rpower (v0 / V) a * Rpower (v0 / V) c = Rpower (v0 / V) (a + c).
Proof. symmetry. apply Rpower_plus. Qed.

Lemma bm_truncated k0 k1 k2 v0 V : 0 < v0 -> 0 < V ->
  k0 * k2 + (k1 - 4) * (k1 - 3) + 35 / 9 = 0 -> bm_curve k0 k1 k2 v0 V = bm3_textbook k0 k1 v0 V.
Proof.
  intros Hv HV E. unfold bm_curve, bm3_textbook, bm2_textbook. rewrite E. cbv zeta.
  replace (1 + 2 * (1 / 2 * (Rpower (v0 / V) (2 / 3) - 1))) with (Rpower (v0 / V) (2 / 3)) by field.
  rewrite Rpower_mult. replace (2 / 3 * (5 / 2)) with (5 / 3) by field.
  replace (7 / 3) with (2 / 3 + 5 / 3) by field. rewrite Rpower_plus.
  generalize (Rpower (v0 / V) (2 / 3)) (Rpower (v0 / V) (5 / 3)). intros. field.
Qed.

Theorem C18_birch_murnaghan p V : admissible p -> 0 < V ->
  curve birch_murnaghan p 3 false true V = bm3_textbook (K0 p) (K1 p) (V0 p) V /\
  curve birch_murnaghan p 2 false true V = bm2_textbook (K0 p) (V0 p) V /\
  curve birch_murnaghan p 2 true true V = bm3_textbook (K0 p) 12 (V0 p) V /\
  (forall k2, curve birch_murnaghan (set_K2 p k2) 4 false true V = bm_curve (K0 p) (K1 p) k2 (V0 p) V).
Proof.
  intros (Hv & Hk) HV.
  split; [|split; [|split]]; [| | |reflexivity].
  - rewrite <- (bm_truncated (K0 p) (K1 p) (K2 (left_by birch_murnaghan p 3 false true))); try assumption.
    + reflexivity.
    + run. field. assumption.
  - transitivity (bm3_textbook (K0 p) 4 (V0 p) V).
    + rewrite <- (bm_truncated (K0 p) 4 (K2 (left_by birch_murnaghan p 2 false true))); try assumption.
      * reflexivity.
      * run. field. assumption.
    + unfold bm3_textbook. ring.
  - rewrite <- (bm_truncated (K0 p) 12 (K2 (left_by birch_murnaghan p 2 true true))); try assumption.
    + reflexivity.
    + run. field. assumption.
Qed.

Theorem C18_natural_strain p V : admissible p -> 0 < V ->
  curve natural_strain p 3 false true V = ns3_textbook (K0 p) (K1 p) (V0 p) V /\
  curve natural_strain p 2 false true V = ns2_textbook (K0 p) (V0 p) V /\
  curve natural_strain p 2 true true V = ns3_textbook (K0 p) 6 (V0 p) V.
Proof.
  intros (Hv & Hk) HV.
  assert (T : forall k1 k2, 1 + k2 * K0 p + (k1 - 2) + (k1 - 2) ^ 2 = 0 ->
            ns_curve (K0 p) k1 k2 (V0 p) V = ns3_textbook (K0 p) k1 (V0 p) V).
  { intros k1 k2 E. unfold ns_curve, ns3_textbook, ns2_textbook. rewrite E. field. lra. }
  split; [|split].
  - rewrite <- (T (K1 p) (K2 (left_by natural_strain p 3 false true))); [reflexivity|]. run. field. assumption.
  - transitivity (ns3_textbook (K0 p) 2 (V0 p) V).
    + rewrite <- (T 2 (K2 (left_by natural_strain p 2 false true))); [reflexivity|]. run. field. assumption.
    + unfold ns3_textbook. replace (2 - 2) with 0 by ring. field.
  - rewrite <- (T 6 (K2 (left_by natural_strain p 2 true true))); [reflexivity|]. run. field. assumption.
Qed.

Theorem C18_vinet p V : admissible p -> 0 < V ->
  curve vinet p 3 false true V = vinet_textbook (K0 p) (K1 p) (V0 p) V /\
  curve vinet p 2 false true V = vinet_textbook (K0 p) 1 (V0 p) V /\
  curve vinet p 2 true true V = vinet_textbook (K0 p) 3 (V0 p) V.
Proof.
  intros (Hv & Hk) HV. destruct p as [k0 k1 k2 v0]. cbn [K0 K1 K2 V0] in *.
  unfold vinet_textbook. run. set (X := Rpower (V / v0) (1 / 3)).
  replace (1 - (1 - X)) with X by ring.
  split; [|split]; unfold Rdiv; ring.
Qed.

(** Tait with K'' = 0 is Murnaghan, at every volume. *)
Theorem C18_tait_is_murnaghan p V o l :
  admissible p -> 0 < K1 p -> 0 < V -> K2 p = 0 -> (4 <= o)%nat ->
  curve tait p o l true V = murnaghan_textbook (K0 p) (K1 p) (V0 p) V /\
  curve tait p o l true V = curve murnaghan p o l true V.
Proof.
  intros (Hv & Hk) H1 HV E Ho.
  assert (EC : curve tait p o l true V = murnaghan_textbook (K0 p) (K1 p) (V0 p) V).
  { unfold curve, tait, tait_pars, second_order.
    destruct (Nat.eqb_spec o 2); [lia|]. destruct (Nat.ltb_spec o 4); [lia|]. simpl.
    unfold tait_a, tait_b, tait_c. rewrite E, !Rmult_0_r, !Rplus_0_r.
    replace ((1 + K1 p) / (1 + K1 p)) with 1 by (field; lra).
    replace ((V / V0 p + 1 - 1) / 1) with (V / V0 p) by (field; lra).
    replace (-1 / ((1 + K1 p) / (K1 p ^ 2 + K1 p - 0))) with (- K1 p) by (field; repeat split; nra).
    replace (K1 p / K0 p - 0 / (1 + K1 p)) with (K1 p / K0 p) by (field; lra).
    unfold murnaghan_textbook, Rpower. rewrite (ln_inv_ratio (V0 p) V) by assumption.
    replace (- K1 p * - ln (V0 p / V)) with (K1 p * ln (V0 p / V)) by ring. field. lra. }
  split; [exact EC|]. rewrite EC. reflexivity.
Qed.
(** The documented Tait order 3 never is: K'' is set to -K'/K0. *)
Theorem C18_tait_order_3 p V l :
  admissible p -> 0 < K1 p -> 0 < V ->
  K2 (left_by tait p 3 l true) = - K1 p / K0 p /\
  curve tait p 3 l true V =
    K0 p * (1 + K1 p) / (K1 p * (2 + K1 p)) *
    (Rpower ((V / V0 p + K1 p) / (1 + K1 p)) (- (K1 p * (2 + K1 p))) - 1).
Proof.
  intros (Hv & Hk) H1 HV. split; [reflexivity|].
  unfold curve, tait, tait_pars, second_order. simpl.
  assert (EK : K0 p * (- K1 p / K0 p) = - K1 p) by (field; assumption).
  unfold tait_a, tait_b, tait_c. simpl. rewrite EK.
  replace ((1 + K1 p) / (1 + K1 p + - K1 p)) with (1 + K1 p) by (field; lra).
  replace (V / V0 p + (1 + K1 p) - 1) with (V / V0 p + K1 p) by ring.
  replace (-1 / ((1 + K1 p + - K1 p) / (K1 p * (K1 p * 1) + K1 p - - K1 p))) with (- (K1 p * (2 + K1 p)))
    by (field; repeat split; nra).
  f_equal. field. repeat split; nra.
Qed.

(** Raising the order by one changes nothing once the array holds the implied
    coefficients, and repeating a call changes nothing: array-valued state left
    by one evaluation cannot disturb the next. *)
Theorem C18_order_raising e p V l :
  List.In e (cons birch_murnaghan (cons natural_strain (cons vinet (cons tait nil)))) ->
  curve e p 2 l true V = curve e (left_by e p 2 l true) 3 l true V /\
  curve e p 3 l true V = curve e (left_by e p 3 l true) 4 l true V.
Proof. intros I. simpl in I. decompose [or] I; subst; try contradiction; split; reflexivity. Qed.
Theorem C18_idempotent e p V W o l d :
  List.In e (cons murnaghan (cons birch_murnaghan (cons natural_strain (cons vinet (cons tait nil))))) ->
  e (fst (e p W o l d)) V o l d = e p V o l d.
Proof.
  intros I. simpl in I. decompose [or] I; subst; try contradiction;
  unfold murnaghan, birch_murnaghan, natural_strain, vinet, tait,
    bm_pars, ns_pars, vinet_pars, tait_pars, second_order; cbn [fst];
  destruct (d && (o =? 2)%nat)%bool; try destruct (d && (o <? 4)%nat)%bool; reflexivity.
Qed.

(** ** C20 *)
Definition strictly_decreasing_on (D : R -> Prop) (P : R -> R) : Prop :=
  forall V V', D V -> D V' -> V < V' -> P V' < P V.

Lemma Rpower_lt_base a b c : 0 < c -> 0 < a -> a < b -> Rpower a c < Rpower b c.
Proof.
  intros Hc Ha Hab. unfold Rpower. apply exp_increasing. apply Rmult_lt_compat_l; [exact Hc|].
  apply ln_increasing; assumption.
Qed.

Theorem C20_murnaghan_decreasing p o l d :
  admissible p -> 0 < K0 p -> 0 < K1 p ->
  strictly_decreasing_on (fun V => 0 < V) (curve murnaghan p o l d).
Proof.
  intros (Hv & Hk) H0 H1 V V' A B L. unfold curve, murnaghan. simpl.
  apply Rmult_lt_compat_l; [apply Rdiv_lt_0_compat; assumption|].
  apply Rplus_lt_compat_r. apply Rpower_lt_base; [assumption|apply Rdiv_lt_0_compat; assumption|].
  apply Rmult_lt_compat_l; [assumption|]. apply Rinv_lt_contravar; [nra|assumption].
Qed.
Theorem C20_murnaghan_inverse p o l d :
  admissible p -> 0 < K0 p -> 0 < K1 p ->
  (forall P, 0 < 1 + K1 p * P / K0 p ->
     let V := V0 p * Rpower (1 + K1 p * P / K0 p) (-1 / K1 p) in
     0 < V /\ curve murnaghan p o l d V = P) /\
  (forall V, 0 < V -> let P := curve murnaghan p o l d V in
     0 < 1 + K1 p * P / K0 p /\ V0 p * Rpower (1 + K1 p * P / K0 p) (-1 / K1 p) = V).
Proof.
  intros (Hv & Hk) H0 H1. split.
  - intros P HP V. assert (HV : 0 < V) by (apply Rmult_lt_0_compat; [assumption|apply exp_pos]).
    split; [exact HV|]. unfold curve, murnaghan. simpl.
    replace (V0 p / V) with (Rpower (1 + K1 p * P / K0 p) (1 / K1 p)).
    + rewrite Rpower_mult. replace (1 / K1 p * K1 p) with 1 by (field; lra).
      rewrite Rpower_1 by assumption. field. lra.
    + unfold V. replace (-1 / K1 p) with (- (1 / K1 p)) by (field; lra).
      rewrite Rpower_Ropp. pose proof (exp_pos (1 / K1 p * ln (1 + K1 p * P / K0 p))).
      unfold Rpower. field. lra.
  - intros V HV P.
    assert (E : 1 + K1 p * P / K0 p = Rpower (V0 p / V) (K1 p)).
    { unfold P, curve, murnaghan. simpl. field. lra. }
    rewrite E. split; [apply exp_pos|].
    rewrite Rpower_mult. replace (K1 p * (-1 / K1 p)) with (- (1)) by (field; lra).
    rewrite Rpower_Ropp, Rpower_1 by (apply Rdiv_lt_0_compat; assumption). field. lra.
Qed.

(** Tait: the argument of the power must be positive for the curve to exist. *)
Definition tait_domain (q : pars) (V : R) : Prop := 0 < (V / V0 q + tait_a q - 1) / tait_a q.

(** Freund and Ingalls' inverse: V = V0 (1 - a + a (1 + b P)^(-c)). *)
Theorem C20_tait_inverse p o l d :
  admissible p ->
  let q := left_by tait p o l d in
  tait_regular q ->
  (forall P, 0 < 1 + tait_b q * P ->
     let V := V0 q * (1 - tait_a q + tait_a q * Rpower (1 + tait_b q * P) (- tait_c q)) in
     tait_domain q V /\ curve tait p o l d V = P) /\
  (forall V, tait_domain q V -> let P := curve tait p o l d V in
     0 < 1 + tait_b q * P /\
     V0 q * (1 - tait_a q + tait_a q * Rpower (1 + tait_b q * P) (- tait_c q)) = V).
Proof.
  intros (Hv & Hk) q (R1 & R2 & R3).
  destruct (pars_kept tait p (V0 p) o l d) as (_ & E0 & EV); [simpl; auto 7|].
  fold (left_by tait p o l d) in E0, EV. fold q in E0, EV.
  assert (Hv' : V0 q <> 0) by (rewrite EV; lra). assert (Hk' : K0 q <> 0) by congruence.
  assert (Ha : tait_a q <> 0).
  { apply Rmult_integral_contrapositive_currified; [assumption|]. now apply Rinv_neq_0_compat. }
  assert (Hc : tait_c q <> 0).
  { apply Rmult_integral_contrapositive_currified; [assumption|]. now apply Rinv_neq_0_compat. }
  assert (Hb : tait_b q <> 0).
  { replace (tait_b q) with ((K1 q ^ 2 + K1 q - K0 q * K2 q) / (K0 q * (1 + K1 q)))
      by (unfold tait_b; field; auto).
    apply Rmult_integral_contrapositive_currified; [assumption|].
    apply Rinv_neq_0_compat, Rmult_integral_contrapositive_currified; assumption. }
  assert (EC : forall V, curve tait p o l d V =
    1 / tait_b q * (Rpower ((V / V0 q + tait_a q - 1) / tait_a q) (-1 / tait_c q) - 1)) by reflexivity.
  split.
  - intros P HP V.
    assert (E : (V / V0 q + tait_a q - 1) / tait_a q = Rpower (1 + tait_b q * P) (- tait_c q)).
    { unfold V. field. auto. }
    split; [unfold tait_domain; rewrite E; apply exp_pos|].
    rewrite EC, E, Rpower_mult. replace (- tait_c q * (-1 / tait_c q)) with 1 by (field; assumption).
    rewrite Rpower_1 by assumption. field. assumption.
  - intros V HV P. unfold tait_domain in HV.
    assert (E : 1 + tait_b q * P = Rpower ((V / V0 q + tait_a q - 1) / tait_a q) (-1 / tait_c q)).
    { unfold P. rewrite EC. field. assumption. }
    rewrite E. split; [apply exp_pos|].
    rewrite Rpower_mult. replace (-1 / tait_c q * - tait_c q) with 1 by (field; assumption).
    rewrite Rpower_1 by assumption. field. auto.
Qed.

Theorem C20_tait_decreasing p o l d :
  admissible p -> 0 < K0 p ->
  let q := left_by tait p o l d in
  tait_regular q ->
  strictly_decreasing_on (tait_domain q) (curve tait p o l d).
Proof.
  intros (Hv & Hk) H0 q (R1 & R2 & R3) V V' D D' L.
  destruct (pars_kept tait p (V0 p) o l d) as (_ & E0 & EV); [simpl; auto 7|].
  fold (left_by tait p o l d) in E0, EV. fold q in E0, EV.
  assert (Hv' : 0 < V0 q) by congruence. assert (Hk' : 0 < K0 q) by congruence.
  assert (EB : tait_b q = (K1 q ^ 2 + K1 q - K0 q * K2 q) / (K0 q * (1 + K1 q)))
    by (unfold tait_b; field; split; [assumption|lra]).
  (* a b c = 1/K0 *)
  assert (ABC : tait_a q * tait_b q * tait_c q = / K0 q).
  { rewrite EB. unfold tait_a, tait_c. field. repeat split; try assumption; lra. }
  assert (Ha : tait_a q <> 0).
  { apply Rmult_integral_contrapositive_currified; [assumption|]. now apply Rinv_neq_0_compat. }
  assert (Hc : tait_c q <> 0).
  { apply Rmult_integral_contrapositive_currified; [assumption|]. now apply Rinv_neq_0_compat. }
  assert (Hb : tait_b q <> 0).
  { intros N. rewrite N, Rmult_0_r, Rmult_0_l in ABC. pose proof (Rinv_0_lt_compat _ Hk'). lra. }
  set (f := fun V => 1 / tait_b q * (Rpower ((V / V0 q + tait_a q - 1) / tait_a q) (-1 / tait_c q) - 1)).
  change (curve tait p o l d) with f.
  assert (CONV : forall W, V <= W <= V' -> tait_domain q W).
  { intros W HW. unfold tait_domain in *.
    assert (V / V0 q <= W / V0 q <= V' / V0 q).
    { split; apply Rmult_le_compat_r; try lra; left; now apply Rinv_0_lt_compat. }
    destruct (Rdichotomy _ _ Ha) as [N|Pz].
    - replace ((V' / V0 q + tait_a q - 1) / tait_a q) with (- (V' / V0 q + tait_a q - 1) / - tait_a q) in D' by (field; split; lra).
      replace ((W / V0 q + tait_a q - 1) / tait_a q) with (- (W / V0 q + tait_a q - 1) / - tait_a q) by (field; split; lra).
      apply Rdiv_lt_0_compat; [|lra].
      assert (0 < - (V' / V0 q + tait_a q - 1)); [|lra].
      apply Rmult_lt_reg_r with (/ - tait_a q); [apply Rinv_0_lt_compat; lra|]. rewrite Rmult_0_l. exact D'.
    - apply Rdiv_lt_0_compat; [|lra].
      assert (0 < V / V0 q + tait_a q - 1); [|lra].
      apply Rmult_lt_reg_r with (/ tait_a q); [apply Rinv_0_lt_compat; lra|]. rewrite Rmult_0_l. exact D. }
  set (df := fun W => - (K0 q / V0 q) * exp ((-1 / tait_c q - 1) * ln ((W / V0 q + tait_a q - 1) / tait_a q))).
  assert (DF : forall W, V <= W <= V' -> is_derive f W (df W)).
  { intros W HW. pose proof (CONV W HW) as Z. unfold tait_domain in Z.
    unfold f, Rpower. evar_last.
    - auto_derive; [|reflexivity]. exact Z.
    - unfold df. set (z := (W / V0 q + tait_a q - 1) / tait_a q) in *.
      change ((W * / V0 q + tait_a q + - (1)) * / tait_a q) with z.
      replace ((-1 / tait_c q - 1) * ln z) with (-1 / tait_c q * ln z + - ln z) by (field; assumption).
      rewrite exp_plus, exp_Ropp, exp_ln by exact Z.
      replace (K0 q) with (/ (tait_a q * tait_b q * tait_c q)) by (rewrite ABC; field; lra).
      set (E := exp (-1 / tait_c q * ln z)). field. repeat split; try assumption; lra. }
  destruct (MVT_gen f V V' df) as (W & HW & E).
  - intros x Hx. rewrite Rmin_left, Rmax_right in Hx by lra. apply DF. lra.
  - intros x Hx. rewrite Rmin_left, Rmax_right in Hx by lra.
    apply continuity_pt_filterlim. apply (@ex_derive_continuous R_AbsRing R_NormedModule).
    exists (df x). apply DF. lra.
  - assert (df W < 0).
    { unfold df. set (E' := exp _). assert (0 < E') by apply exp_pos.
      assert (0 < K0 q / V0 q) by (apply Rdiv_lt_0_compat; assumption). nra. }
    nra.
Qed.

(** Under compression (V <= V0) with K0 > 0 the truncated third-order curves
    are strictly decreasing too, for K' at least the second-order value. *)
Lemma exp_le a b : a <= b -> exp a <= exp b.
Proof. intros [L | ->]; [left; now apply exp_increasing|right; reflexivity]. Qed.
Lemma mult_lt_incr a b c d : 0 <= a -> a < b -> 0 < c -> c <= d -> a * c < b * d.
Proof. intros. nra. Qed.

Theorem C20_compression p :
  admissible p -> 0 < K0 p ->
  let D V := 0 < V <= V0 p in
  (4 <= K1 p -> strictly_decreasing_on D (curve birch_murnaghan p 3 false true)) /\
  (2 <= K1 p -> strictly_decreasing_on D (curve natural_strain p 3 false true)) /\
  (1 <= K1 p -> strictly_decreasing_on D (curve vinet p 3 false true)) /\
  strictly_decreasing_on D (curve birch_murnaghan p 2 false true) /\
  strictly_decreasing_on D (curve natural_strain p 2 false true) /\
  strictly_decreasing_on D (curve vinet p 2 false true).
Proof.
  intros A H0 D. pose proof A as (Hv & Hk).
  assert (X : forall V V', D V -> D V' -> V < V' -> 0 <= ln (V0 p / V') < ln (V0 p / V)).
  { intros V V' (P1 & P2) (Q1 & Q2) L. split.
    - rewrite <- ln_1. destruct Q2 as [Q2|Q2].
      + left. apply ln_increasing; [lra|]. apply Rmult_lt_reg_r with V'; [assumption|]. field_simplify; lra.
      + rewrite Q2. unfold Rdiv. rewrite Rinv_r by lra. lra.
    - apply ln_increasing; [apply Rdiv_lt_0_compat; lra|].
      apply Rmult_lt_compat_l; [assumption|]. apply Rinv_lt_contravar; [nra|assumption]. }
  assert (BM : forall k1, 4 <= k1 -> strictly_decreasing_on D (bm3_textbook (K0 p) k1 (V0 p))).
  { intros k1 H1 V V' DV DV' L. destruct (X V V' DV DV' L) as (X0 & X1).
    unfold bm3_textbook, bm2_textbook, Rpower.
    set (x := ln (V0 p / V)) in *. set (x' := ln (V0 p / V')) in *.
    assert (E : forall y, exp (7 / 3 * y) = exp (2 / 3 * y) * exp (5 / 3 * y)) by (intros; rewrite <- exp_plus; f_equal; field).
    rewrite !E.
    assert (Y2 : 1 <= exp (2 / 3 * x') < exp (2 / 3 * x)).
    { split; [rewrite <- exp_0; apply exp_le; lra|apply exp_increasing; lra]. }
    assert (Y5 : 1 <= exp (5 / 3 * x') < exp (5 / 3 * x)).
    { split; [rewrite <- exp_0; apply exp_le; lra|apply exp_increasing; lra]. }
    set (a := exp (2 / 3 * x)) in *. set (a' := exp (2 / 3 * x')) in *.
    set (b := exp (5 / 3 * x)) in *. set (b' := exp (5 / 3 * x')) in *.
    replace (3 / 2 * K0 p * (a' * b' - b')) with (3 / 2 * K0 p * ((a' - 1) * b')) by ring.
    replace (3 / 2 * K0 p * (a * b - b)) with (3 / 2 * K0 p * ((a - 1) * b)) by ring.
    assert (S1 : (a' - 1) * b' < (a - 1) * b) by (apply mult_lt_incr; lra).
    assert (S0 : 0 <= (a' - 1) * b') by (apply Rmult_le_pos; lra).
    apply mult_lt_incr.
    - apply Rmult_le_pos; [lra|assumption].
    - apply Rmult_lt_compat_l; [lra|assumption].
    - nra.
    - nra. }
  assert (NS : forall k1, 2 <= k1 -> strictly_decreasing_on D (ns3_textbook (K0 p) k1 (V0 p))).
  { intros k1 H1 V V' DV DV' L. destruct (X V V' DV DV' L) as (X0 & X1).
    unfold ns3_textbook, ns2_textbook.
    assert (0 < V0 p / V' < V0 p / V).
    { destruct DV, DV'. split; [apply Rdiv_lt_0_compat; lra|].
      apply Rmult_lt_compat_l; [assumption|]. apply Rinv_lt_contravar; [nra|assumption]. }
    set (x := ln (V0 p / V)) in *. set (x' := ln (V0 p / V')) in *.
    set (r := V0 p / V) in *. set (r' := V0 p / V') in *.
    rewrite !Rmult_assoc. apply Rmult_lt_compat_l; [assumption|].
    rewrite !(Rmult_comm r'), !(Rmult_comm r).
    apply mult_lt_incr; try lra.
    - apply Rmult_le_pos; [assumption|]. nra.
    - apply mult_lt_incr; try lra; nra. }
  assert (VI : forall k1, 1 <= k1 -> strictly_decreasing_on D (vinet_textbook (K0 p) k1 (V0 p))).
  { intros k1 H1 V V' DV DV' L. destruct (X V V' DV DV' L) as (X0 & X1).
    unfold vinet_textbook, Rpower. cbv zeta.
    rewrite (ln_inv_ratio (V0 p) V), (ln_inv_ratio (V0 p) V') by (unfold D in *; lra).
    set (x := ln (V0 p / V)) in *. set (x' := ln (V0 p / V')) in *.
    assert (Y : 0 < exp (1 / 3 * - x) < exp (1 / 3 * - x') /\ exp (1 / 3 * - x') <= 1).
    { split; [split; [apply exp_pos|apply exp_increasing; lra]|]. apply Rle_trans with (exp 0); [apply exp_le; lra|rewrite exp_0; lra]. }
    set (u := exp (1 / 3 * - x)) in *. set (u' := exp (1 / 3 * - x')) in *.
    destruct Y as ((Y0 & Y1) & Y2).
    assert (Q : 0 < u ^ 2) by nra. assert (Q' : u ^ 2 < u' ^ 2) by nra.
    assert (I : / u' ^ 2 < / u ^ 2) by (apply Rinv_lt_contravar; [apply Rmult_lt_0_compat; lra|exact Q']).
    assert (I0 : 0 < / u' ^ 2) by (apply Rinv_0_lt_compat; nra).
    assert (EX : exp (3 / 2 * (k1 - 1) * (1 - u')) <= exp (3 / 2 * (k1 - 1) * (1 - u)))
      by (apply exp_le; nra).
    pose proof (exp_pos (3 / 2 * (k1 - 1) * (1 - u'))).
    apply mult_lt_incr; try assumption.
    - apply Rmult_le_pos; [|lra]. apply Rmult_le_pos; lra.
    - unfold Rdiv. apply mult_lt_incr; try assumption; try lra.
      + apply Rmult_le_pos; lra.
      + apply Rmult_lt_compat_l; lra. }
  assert (EXT : forall f g, (forall V, 0 < V -> f V = g V) -> strictly_decreasing_on D g -> strictly_decreasing_on D f).
  { intros f g E S V V' DV DV' L. rewrite !E by (unfold D in *; lra). now apply S. }
  split; [|split; [|split; [|split; [|split]]]]; intros.
  - eapply EXT; [|apply (BM (K1 p)); assumption]. intros; now apply C18_birch_murnaghan.
  - eapply EXT; [|apply (NS (K1 p)); assumption]. intros; now apply C18_natural_strain.
  - eapply EXT; [|apply (VI (K1 p)); assumption]. intros; now apply C18_vinet.
  - eapply EXT; [|apply (BM 4); lra]. intros V HV. destruct (C18_birch_murnaghan p V A HV) as (_ & -> & _).
    unfold bm3_textbook. ring.
  - eapply EXT; [|apply (NS 2); lra]. intros V HV. destruct (C18_natural_strain p V A HV) as (_ & -> & _).
    unfold ns3_textbook. field.
  - eapply EXT; [|apply (VI 1); lra]. intros V HV. now destruct (C18_vinet p V A HV) as (_ & -> & _).
Qed.

(** Non-vacuity: garnet-like parameters satisfy every hypothesis. *)
Definition garnet : pars := {| K0 := 170; K1 := 41 / 10; K2 := - / 50; V0 := 1500 |}.
Example garnet_ok : admissible garnet /\ K1 garnet <> 0 /\ 0 < K0 garnet /\
  tait_regular (left_by tait garnet 3 false true) /\ tait_regular garnet /\
  tait_domain (left_by tait garnet 3 false true) 1400.
Proof.
  unfold admissible, tait_regular, tait_domain, tait_a, left_by, garnet; simpl.
  repeat split; try lra.
  replace (170 * (- (41 / 10) / 170)) with (- (41 / 10)) by field.
  replace ((1 + 41 / 10) / (1 + 41 / 10 + - (41 / 10))) with (51 / 10) by field.
  apply Rdiv_lt_0_compat; lra.
Qed.
Example garnet_linear : K1 (left_by birch_murnaghan garnet 2 true true) = 12 /\
  K1 (left_by birch_murnaghan garnet 2 false true) = 4 /\
  K1 (left_by birch_murnaghan garnet 2 false false) = 41 / 10.
Proof. repeat split. Qed.

Print Assumptions C16_murnaghan.
Print Assumptions C16_birch_murnaghan.
Print Assumptions C16_natural_strain.
Print Assumptions C16_vinet.
Print Assumptions C16_tait.
Print Assumptions C17_implied_second_derivative.
Print Assumptions C17_vinet_second_derivative_refuted.
Print Assumptions C18_birch_murnaghan.
Print Assumptions C18_natural_strain.
Print Assumptions C18_vinet.
Print Assumptions C18_tait_is_murnaghan.
Print Assumptions C18_tait_order_3.
Print Assumptions C18_order_raising.
Print Assumptions C18_idempotent.
Print Assumptions C20_murnaghan_decreasing.
Print Assumptions C20_murnaghan_inverse.
Print Assumptions C20_tait_inverse.
Print Assumptions C20_tait_decreasing.
Print Assumptions C20_compression.
