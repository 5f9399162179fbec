(** Property C105: pressures at enough volumes determine the parameters of the
    pressure-volume equations of state, but for the two of fourth order. *)
From Coq Require Import Reals String List Lra Lia Bool Arith Psatz.
From Coquelicot Require Import Coquelicot.
From Verif Require Import PolyModel PolyProps PolyfitProofs PvEosModel PvEosSpec PvEosProofs PvEosProps.
From Verif Require EvIdentProps.
Import ListNotations.
Import EvIdentProps(zeros_from, rolle_zeros, enough_zeros, map_distinct, ln_ratio, exp_injective).
Open Scope list_scope.
Open Scope R_scope.

(** The parameters with which a call evaluates the curve: those which it leaves behind. *)
Notation used e p o l := (left_by e p o l true).
Definition sound (p : pars) : Prop := 0 < K0 p /\ 0 < V0 p.
(** The volumes are distinct, positive and [n] at least. *)
Definition volumes (n : nat) (vs : list R) : Prop := NoDup vs /\ (n <= List.length vs)%nat /\ forall V, In V vs -> 0 < V.
(** The two curves give the same pressures at them. *)
Definition agree (P Q : R -> R) (vs : list R) : Prop := forall V, In V vs -> P V = Q V.
(** How many volumes are enough for each equation of state. *)
Definition enough (e : eos_method) (o n : nat) : Prop :=
  e = murnaghan /\ n = 3%nat \/ e = birch_murnaghan /\ (o < 4)%nat /\ n = 3%nat \/ e = natural_strain /\ (o < 4)%nat /\ n = 3%nat \/ e = vinet /\ n = 4%nat.

(** ** Quadratics, told by the root with positive slope *)
Lemma quadratic_vanishes a b c l : NoDup l -> (3 <= List.length l)%nat -> (forall s, In s l -> a * s ^ 2 + b * s + c = 0) -> a = 0 /\ b = 0 /\ c = 0.
Proof.
  intros ND L H. destruct l as [|x [|y [|z l]]]; cbn in L; try lia. inversion ND as [|? ? N1 ND1]; subst. inversion ND1 as [|? ? N2 ND2]; subst.
  assert (XY : x <> y) by (intros ->; apply N1; cbn; auto). assert (XZ : x <> z) by (intros ->; apply N1; cbn; auto). assert (YZ : y <> z) by (intros ->; apply N2; cbn; auto).
  pose proof (H x ltac:(cbn; auto)) as HX. pose proof (H y ltac:(cbn; auto)) as HY. pose proof (H z ltac:(cbn; auto)) as HZ.
  assert (E1 : (x - y) * (a * (x + y) + b) = 0) by lra. assert (E2 : (x - z) * (a * (x + z) + b) = 0) by lra.
  apply Rmult_integral in E1 as [|E1]; [lra|]. apply Rmult_integral in E2 as [|E2]; [lra|].
  assert (E3 : a * (y - z) = 0) by lra. apply Rmult_integral in E3 as [A|]; [|lra]. subst a. assert (b = 0) by lra. subst b. lra.
Qed.
Lemma quadratic_told D w c D' w' c' l : 0 < D -> 0 < D' -> NoDup l -> (3 <= List.length l)%nat ->
  (forall s, In s l -> D * (s - w) * (1 + c * (s - w)) = D' * (s - w') * (1 + c' * (s - w'))) -> D = D' /\ w = w' /\ c = c'.
Proof.
  intros PD PD' ND L H.
  destruct (quadratic_vanishes (D * c - D' * c') (D - 2 * D * c * w - (D' - 2 * D' * c' * w')) (- D * w + D * c * w ^ 2 - (- D' * w' + D' * c' * w' ^ 2)) l ND L) as (A & B & C).
  { intros s S. specialize (H s S). lra. }
  assert (F : forall s, D * (s - w) * (1 + c * (s - w)) = D' * (s - w') * (1 + c' * (s - w'))).
  { intros s. apply Rminus_diag_uniq. transitivity ((D * c - D' * c') * s ^ 2 + (D - 2 * D * c * w - (D' - 2 * D' * c' * w')) * s + (- D * w + D * c * w ^ 2 - (- D' * w' + D' * c' * w' ^ 2))); [ring|]. rewrite A, B, C. ring. }
  assert (W : w = w').
  { pose proof (F w') as Q. replace (w' - w') with 0 in Q by ring. rewrite Rmult_0_r, Rmult_0_l in Q. apply Rmult_integral in Q as [Q|Q].
    - apply Rmult_integral in Q as [|]; lra.
    - exfalso. assert (S1 : D * c = D' * c') by lra. assert (S2 : D + 2 * (D * c) * (w' - w) = D') by (assert (S4 : D * c * w' = D' * c' * w') by (rewrite S1; ring); lra). assert (S3 : D * (c * (w' - w)) = - D) by (replace (c * (w' - w)) with (-1) by lra; ring). nra. }
  subst w'. assert (D = D') by nra. subst D'. split; [reflexivity|]. split; [reflexivity|]. apply Rmult_eq_reg_l with D; lra.
Qed.

(** ** The curves *)
Lemma bm3_unique k0 k1 v0 k0' k1' v0' l : 0 < k0 -> 0 < k0' -> 0 < v0 -> 0 < v0' -> NoDup l -> (3 <= List.length l)%nat ->
  (forall V, In V l -> 0 < V /\ bm3_textbook k0 k1 v0 V = bm3_textbook k0' k1' v0' V) -> k0 = k0' /\ k1 = k1' /\ v0 = v0'.
Proof.
  intros A A' B B' ND L H. set (a v := exp (2 / 3 * ln v)). set (b v := exp (5 / 3 * ln v)).
  assert (EF : forall k0 k1 v0 V, 0 < v0 -> 0 < V ->
    bm3_textbook k0 k1 v0 V = exp (- (5 / 3) * ln V) * (3 / 2 * k0 * b v0 * a v0 * (exp (- (2 / 3) * ln V) - / a v0) * (1 + 3 / 4 * (k1 - 4) * a v0 * (exp (- (2 / 3) * ln V) - / a v0)))).
  { intros h0 h1 u V U PV. unfold bm3_textbook, bm2_textbook, Rpower. rewrite ln_ratio by assumption.
    replace (7 / 3 * (ln u - ln V)) with (5 / 3 * ln u + (2 / 3 * ln u + (- (5 / 3) * ln V + - (2 / 3) * ln V))) by field.
    replace (5 / 3 * (ln u - ln V)) with (5 / 3 * ln u + - (5 / 3) * ln V) by field. replace (2 / 3 * (ln u - ln V)) with (2 / 3 * ln u + - (2 / 3) * ln V) by field.
    rewrite !exp_plus. fold (a u) (b u). assert (0 < a u) by apply exp_pos. field. lra. }
  assert (PA : forall v, 0 < a v) by (intros; apply exp_pos). assert (PB : forall v, 0 < b v) by (intros; apply exp_pos).
  destruct (quadratic_told (3 / 2 * k0 * b v0 * a v0) (/ a v0) (3 / 4 * (k1 - 4) * a v0) (3 / 2 * k0' * b v0' * a v0') (/ a v0') (3 / 4 * (k1' - 4) * a v0') (map (fun V => exp (- (2 / 3) * ln V)) l)) as (E1 & E2 & E3).
  - repeat apply Rmult_lt_0_compat; auto; lra.
  - repeat apply Rmult_lt_0_compat; auto; lra.
  - apply map_distinct; [|assumption]. intros x y X Y Q. apply exp_injective in Q. apply ln_inv; try (now apply H). lra.
  - now rewrite map_length.
  - intros s S. apply in_map_iff in S as (V & <- & I). destruct (H V I) as (PV & E). rewrite !EF in E by assumption. apply Rmult_eq_reg_l in E; [exact E|]. apply Rgt_not_eq, exp_pos.
  - assert (AE : a v0 = a v0') by (rewrite <- (Rinv_inv (a v0)), E2, Rinv_inv; reflexivity).
    assert (VE : v0 = v0') by (apply ln_inv; auto; apply exp_injective in AE; lra). subst v0'. pose proof (PA v0). pose proof (PB v0). split; [|split; [|reflexivity]].
    + apply Rmult_eq_reg_r with (3 / 2 * (b v0 * a v0)); [lra|]. apply Rgt_not_eq. apply Rmult_lt_0_compat; [lra|]. now apply Rmult_lt_0_compat.
    + apply Rmult_eq_reg_r in E3; [lra|lra].
Qed.
Lemma ns3_unique k0 k1 v0 k0' k1' v0' l : 0 < k0 -> 0 < k0' -> 0 < v0 -> 0 < v0' -> NoDup l -> (3 <= List.length l)%nat ->
  (forall V, In V l -> 0 < V /\ ns3_textbook k0 k1 v0 V = ns3_textbook k0' k1' v0' V) -> k0 = k0' /\ k1 = k1' /\ v0 = v0'.
Proof.
  intros A A' B B' ND L H.
  assert (EF : forall k0 k1 v0 V, 0 < v0 -> 0 < V -> ns3_textbook k0 k1 v0 V = / V * (k0 * v0 * (- ln V - - ln v0) * (1 + (k1 - 2) / 2 * (- ln V - - ln v0)))).
  { intros h0 h1 u V U PV. unfold ns3_textbook, ns2_textbook. rewrite ln_ratio by assumption. field. lra. }
  destruct (quadratic_told (k0 * v0) (- ln v0) ((k1 - 2) / 2) (k0' * v0') (- ln v0') ((k1' - 2) / 2) (map (fun V => - ln V) l)) as (E1 & E2 & E3).
  - now apply Rmult_lt_0_compat.
  - now apply Rmult_lt_0_compat.
  - apply map_distinct; [|assumption]. intros x y X Y Q. apply ln_inv; try (now apply H). lra.
  - now rewrite map_length.
  - intros s S. apply in_map_iff in S as (V & <- & I). destruct (H V I) as (PV & E). rewrite !EF in E by assumption. apply Rmult_eq_reg_l in E; [exact E|]. apply Rgt_not_eq. now apply Rinv_0_lt_compat.
  - assert (VE : v0 = v0') by (apply ln_inv; auto; lra). subst v0'. split; [|split; [lra|reflexivity]]. apply Rmult_eq_reg_r in E1; [exact E1|lra].
Qed.
Lemma below (l : list R) : exists a, forall x, In x l -> a < x.
Proof.
  induction l as [|y l (a & A)]; [exists 0; contradiction|]. exists (Rmin a (y - 1)). intros x [<-|I].
  - pose proof (Rmin_r a (y - 1)). lra.
  - apply A in I. pose proof (Rmin_l a (y - 1)). lra.
Qed.
Lemma murnaghan_unique k0 k1 v0 k0' k1' v0' l : 0 < k0 -> 0 < k0' -> 0 < v0 -> 0 < v0' -> k1 <> 0 -> k1' <> 0 -> NoDup l -> (3 <= List.length l)%nat ->
  (forall V, In V l -> 0 < V /\ murnaghan_textbook k0 k1 v0 V = murnaghan_textbook k0' k1' v0' V) -> k0 = k0' /\ k1 = k1' /\ v0 = v0'.
Proof.
  intros A A' B B' Z Z' ND L H. set (w := ln v0). set (w' := ln v0').
  set (f := fun s => k0 / k1 * (exp (k1 * (w - s)) - 1) - k0' / k1' * (exp (k1' * (w' - s)) - 1)).
  destruct (below (map ln l)) as (a & Ha).
  destruct (enough_zeros a f (map ln l) 3) as (m & LM & ZM).
  { apply map_distinct; [|assumption]. intros x y X Y. apply ln_inv; now apply H. }
  { intros s S. split; [now apply Ha|]. apply in_map_iff in S as (V & <- & I). destruct (H V I) as (PV & E). unfold murnaghan_textbook, Rpower in E. rewrite !ln_ratio in E by assumption. unfold f, w, w'. lra. }
  { now rewrite map_length. }
  set (f1 := fun s => - k0 * exp (k1 * (w - s)) - - k0' * exp (k1' * (w' - s))).
  destruct (rolle_zeros f f1 a m) as (m1 & L1 & Z1).
  { intros s _. unfold f, f1. auto_derive; [exact I|]. unfold Rminus. field. auto. }
  { exact ZM. }
  assert (EQ : forall s, f1 s = 0 -> ln k0 + k1 * (w - s) = ln k0' + k1' * (w' - s)).
  { intros s F. unfold f1 in F. assert (Q : k0 * exp (k1 * (w - s)) = k0' * exp (k1' * (w' - s))) by lra. apply (f_equal ln) in Q. rewrite !ln_mult, !ln_exp in Q by (assumption || apply exp_pos). exact Q. }
  destruct m1 as [|s1 [|s2 m1]]; cbn in L1; try lia. cbn [zeros_from] in Z1. destruct Z1 as (_ & F1 & S12 & F2 & _). apply EQ in F1. apply EQ in F2.
  assert (K : k1 = k1') by (assert (Q : (k1 - k1') * (s2 - s1) = 0) by lra; apply Rmult_integral in Q as [|]; lra). subst k1'.
  assert (KK : forall s, k0 * exp (k1 * (w - s)) = k0' * exp (k1 * (w' - s))).
  { intros s. apply ln_inv; try (apply Rmult_lt_0_compat; [assumption|apply exp_pos]). rewrite !ln_mult, !ln_exp by (assumption || apply exp_pos). lra. }
  destruct m as [|s m]; cbn in LM; try lia. cbn [zeros_from] in ZM. destruct ZM as (_ & FZ & _). unfold f in FZ.
  assert (KE : k0 = k0').
  { pose proof (KK s) as Q. assert (Q2 : (k0 * exp (k1 * (w - s)) - k0 - (k0' * exp (k1 * (w' - s)) - k0')) = 0); [|lra].
    apply Rmult_eq_reg_r with (/ k1); [|now apply Rinv_neq_0_compat]. rewrite Rmult_0_l, <- FZ. field. assumption. }
  subst k0'. split; [reflexivity|]. split; [reflexivity|]. apply ln_inv; auto. fold w w'. assert (Q : k1 * (w - w') = 0) by lra. apply Rmult_integral in Q as [|]; lra.
Qed.
Lemma vinet_told G w c G' w' c' l : 0 < G -> 0 < G' -> NoDup l -> (4 <= List.length l)%nat ->
  (forall t, In t l -> 0 < t /\ G * (w - t) * exp (c * (w - t)) = G' * (w' - t) * exp (c' * (w' - t))) -> G = G' /\ w = w' /\ c = c'.
Proof.
  intros PG PG' ND L H. set (s := c - c'). set (H1 := G * exp (c * w)). set (H2 := G' * exp (c' * w')).
  assert (P1 : 0 < H1) by (apply Rmult_lt_0_compat; [assumption|apply exp_pos]). assert (P2 : 0 < H2) by (apply Rmult_lt_0_compat; [assumption|apply exp_pos]).
  set (g := fun t => H1 * (w - t) - H2 * (w' - t) * exp (s * t)).
  destruct (enough_zeros 0 g l 4) as (m & LM & ZM); [assumption| |assumption|].
  { intros t T. destruct (H t T) as (PT & E). split; [exact PT|]. unfold g, H1, H2, s. replace (c * (w - t)) with (c * w + - (c * t)) in E by ring. replace (c' * (w' - t)) with (c' * w' + - (c' * t)) in E by ring.
    replace ((c - c') * t) with (c * t + - (c' * t)) by ring. rewrite !exp_plus in *. rewrite !exp_Ropp in *. pose proof (exp_pos (c * t)). pose proof (exp_pos (c' * t)).
    apply Rmult_eq_reg_r with (/ exp (c * t)); [|apply Rinv_neq_0_compat; lra]. rewrite Rmult_0_l. apply Rminus_diag_eq in E. rewrite <- E. field. lra. }
  destruct (Req_dec s 0) as [S0|NS].
  - assert (C : c = c') by (unfold s in S0; lra). subst c'. assert (LL : forall t, g t = 0 -> H1 * (w - t) = H2 * (w' - t)) by (intros t T; unfold g in T; rewrite S0, Rmult_0_l, exp_0 in T; lra).
    destruct m as [|t1 [|t2 m]]; cbn in LM; try lia. cbn [zeros_from] in ZM. destruct ZM as (_ & F1 & T12 & F2 & _). apply LL in F1. apply LL in F2.
    assert (HE : H1 = H2) by (assert (Q : (H1 - H2) * (t2 - t1) = 0) by lra; apply Rmult_integral in Q as [|]; lra). rewrite <- HE in F1. apply Rmult_eq_reg_l in F1; [|lra].
    assert (W : w = w') by lra. subst w'. split; [|auto]. unfold H1, H2 in HE. apply Rmult_eq_reg_r in HE; [exact HE|]. apply Rgt_not_eq, exp_pos.
  - exfalso. set (g1 := fun t => - H1 - H2 * (s * (w' - t) - 1) * exp (s * t)). set (g2 := fun t => - H2 * (s ^ 2 * (w' - t) - 2 * s) * exp (s * t)).
    destruct (rolle_zeros g g1 0 m) as (m1 & L1 & Z1); [|exact ZM|].
    { intros t _. unfold g, g1. auto_derive; [exact I|]. unfold Rminus. ring. }
    destruct (rolle_zeros g1 g2 0 m1) as (m2 & L2 & Z2); [|exact Z1|].
    { intros t _. unfold g1, g2. auto_derive; [exact I|]. unfold Rminus. ring. }
    assert (LL : forall t, g2 t = 0 -> s ^ 2 * (w' - t) = 2 * s).
    { intros t T. unfold g2 in T. apply Rmult_integral in T as [T|T]; [|pose proof (exp_pos (s * t)); lra]. apply Rmult_integral in T as [T|T]; lra. }
    destruct m2 as [|t1 [|t2 m2]]; cbn in L2; try lia. cbn [zeros_from] in Z2. destruct Z2 as (_ & F1 & T12 & F2 & _). apply LL in F1. apply LL in F2.
    assert (Q : s ^ 2 * (t2 - t1) = 0) by lra. apply Rmult_integral in Q as [Q|]; [|lra]. apply pow_nonzero with (n := 2%nat) in NS. contradiction.
Qed.
Lemma vinet_pv_unique k0 k1 v0 k0' k1' v0' l : 0 < k0 -> 0 < k0' -> 0 < v0 -> 0 < v0' -> NoDup l -> (4 <= List.length l)%nat ->
  (forall V, In V l -> 0 < V /\ vinet_textbook k0 k1 v0 V = vinet_textbook k0' k1' v0' V) -> k0 = k0' /\ k1 = k1' /\ v0 = v0'.
Proof.
  intros A A' B B' ND L H. set (w v := exp (1 / 3 * ln v)). assert (PW : forall v, 0 < w v) by (intros; apply exp_pos).
  assert (EF : forall k0 k1 v0 V, 0 < v0 -> 0 < V -> vinet_textbook k0 k1 v0 V = / (w V) ^ 2 * (3 * k0 * w v0 * (w v0 - w V) * exp (3 / 2 * (k1 - 1) / w v0 * (w v0 - w V)))).
  { intros h0 h1 u V U PV. unfold vinet_textbook, Rpower. cbv zeta. rewrite ln_ratio by assumption.
    assert (Q : exp (1 / 3 * (ln V - ln u)) = w V / w u). { unfold w. replace (1 / 3 * (ln V - ln u)) with (1 / 3 * ln V + - (1 / 3 * ln u)) by ring. rewrite exp_plus, exp_Ropp. reflexivity. }
    rewrite Q. pose proof (PW u). pose proof (PW V). replace (3 / 2 * (h1 - 1) * (1 - w V / w u)) with (3 / 2 * (h1 - 1) / w u * (w u - w V)) by (field; lra). field. lra. }
  destruct (vinet_told (3 * k0 * w v0) (w v0) (3 / 2 * (k1 - 1) / w v0) (3 * k0' * w v0') (w v0') (3 / 2 * (k1' - 1) / w v0') (map w l)) as (E1 & E2 & E3).
  - repeat apply Rmult_lt_0_compat; auto; lra.
  - repeat apply Rmult_lt_0_compat; auto; lra.
  - apply map_distinct; [|assumption]. intros x y X Y Q. apply exp_injective in Q. apply ln_inv; try (now apply H). lra.
  - now rewrite map_length.
  - intros s S. apply in_map_iff in S as (V & <- & I). destruct (H V I) as (PV & E). split; [apply PW|]. rewrite !EF in E by assumption. apply Rmult_eq_reg_l in E; [exact E|]. apply Rinv_neq_0_compat, pow_nonzero, Rgt_not_eq, PW.
  - assert (VE : v0 = v0') by (apply ln_inv; auto; apply exp_injective in E2; lra). subst v0'. pose proof (PW v0). split; [|split; [|reflexivity]].
    + apply Rmult_eq_reg_r in E1; lra.
    + unfold Rdiv in E3. apply Rmult_eq_reg_r in E3; [lra|]. apply Rinv_neq_0_compat. lra.
Qed.

(** ** C105 *)
Local Ltac run := cbv [left_by curve murnaghan birch_murnaghan bm_pars natural_strain ns_pars vinet vinet_pars tait tait_pars second_order set_K1 set_K2 fst snd andb K0 K1 K2 V0].
Lemma low o : (o < 4)%nat -> (o <? 4)%nat = true.
Proof. apply Nat.ltb_lt. Qed.
Lemma bm_low p o l V : sound p -> (o < 4)%nat -> 0 < V -> curve birch_murnaghan p o l true V = bm3_textbook (K0 p) (K1 (used birch_murnaghan p o l)) (V0 p) V.
Proof.
  intros (A & B) O PV. rewrite <- (bm_truncated (K0 p) (K1 (used birch_murnaghan p o l)) (K2 (used birch_murnaghan p o l))); try assumption.
  - unfold curve, birch_murnaghan. cbn [snd]. unfold left_by, birch_murnaghan. cbn [fst]. unfold bm_curve, bm_pars, second_order. rewrite (low o O). destruct (true && (o =? 2)%nat)%bool; destruct l; reflexivity.
  - unfold left_by, birch_murnaghan, bm_pars, second_order. rewrite (low o O). destruct (true && (o =? 2)%nat)%bool; destruct l; cbn; field; lra.
Qed.
Lemma ns_low p o l V : sound p -> (o < 4)%nat -> 0 < V -> curve natural_strain p o l true V = ns3_textbook (K0 p) (K1 (used natural_strain p o l)) (V0 p) V.
Proof.
  intros (A & B) O PV. unfold ns3_textbook, ns2_textbook, left_by, curve, natural_strain, ns_pars, second_order. rewrite (low o O).
  destruct (true && (o =? 2)%nat)%bool; destruct l; cbn; field; lra.
Qed.
Lemma vinet_any p o l V : sound p -> 0 < V -> curve vinet p o l true V = vinet_textbook (K0 p) (K1 (used vinet p o l)) (V0 p) V.
Proof.
  intros (A & B) PV. unfold vinet_textbook, left_by, curve, vinet, vinet_pars, second_order.
  assert (X : 0 < Rpower (V / V0 p) (1 / 3)) by apply exp_pos.
  destruct (true && (o =? 2)%nat)%bool; destruct l; cbn [fst snd set_K1 set_K2 K0 K1 K2 V0]; (replace (1 - (1 - Rpower (V / V0 p) (1 / 3))) with (Rpower (V / V0 p) (1 / 3)) by ring); field; lra.
Qed.
Theorem C105_determined e o n p q l vs : enough e o n -> volumes n vs -> sound p -> sound q -> (e = murnaghan -> K1 p <> 0 /\ K1 q <> 0) ->
  agree (curve e p o l true) (curve e q o l true) vs -> used e p o l = used e q o l.
Proof.
  intros EN (ND & L & PV) SP SQ M H. pose proof SP as (A & B). pose proof SQ as (A' & B').
  destruct EN as [(E & N)|[(E & O & N)|[(E & O & N)|(E & N)]]]; subst e n.
  - destruct (M eq_refl) as (Z & Z'). destruct (murnaghan_unique (K0 p) (K1 p) (V0 p) (K0 q) (K1 q) (V0 q) vs) as (E1 & E2 & E3); auto.
    { intros V I. split; [auto|]. exact (H V I). }
    unfold left_by, murnaghan. cbn [fst]. unfold set_K2. now rewrite E1, E2, E3.
  - destruct (bm3_unique (K0 p) (K1 (used birch_murnaghan p o l)) (V0 p) (K0 q) (K1 (used birch_murnaghan q o l)) (V0 q) vs) as (E1 & E2 & E3); auto.
    { intros V I. split; [auto|]. rewrite <- !bm_low by auto. exact (H V I). }
    revert E2. unfold left_by, birch_murnaghan, bm_pars, second_order. rewrite (low o O). cbn [fst]. destruct (true && (o =? 2)%nat)%bool; destruct l; cbn; unfold set_K1, set_K2; cbn; intros E2; rewrite ?E1, ?E2, ?E3; reflexivity.
  - destruct (ns3_unique (K0 p) (K1 (used natural_strain p o l)) (V0 p) (K0 q) (K1 (used natural_strain q o l)) (V0 q) vs) as (E1 & E2 & E3); auto.
    { intros V I. split; [auto|]. rewrite <- !ns_low by auto. exact (H V I). }
    revert E2. unfold left_by, natural_strain, ns_pars, second_order. rewrite (low o O). cbn [fst]. destruct (true && (o =? 2)%nat)%bool; destruct l; cbn; unfold set_K1, set_K2; cbn; intros E2; rewrite ?E1, ?E2, ?E3; reflexivity.
  - destruct (vinet_pv_unique (K0 p) (K1 (used vinet p o l)) (V0 p) (K0 q) (K1 (used vinet q o l)) (V0 q) vs) as (E1 & E2 & E3); auto.
    { intros V I. split; [auto|]. rewrite <- !vinet_any by auto. exact (H V I). }
    revert E2. unfold left_by, vinet, vinet_pars, second_order. cbn [fst]. destruct (true && (o =? 2)%nat)%bool; destruct l; cbn; unfold set_K1, set_K2; cbn; intros E2; rewrite ?E1, ?E2, ?E3; reflexivity.
Qed.

(** Tait's equation, of any order: four volumes, those of its fourth order having four parameters. *)
Lemma reference_state_ext (P Q : R -> R) (v0 k0 k1 k2 : R) : locally v0 (fun V => P V = Q V) -> reference_state P v0 k0 k1 k2 -> reference_state Q v0 k0 k1 k2.
Proof.
  intros L (Z & K & K' & K'' & A & B & C & D). assert (LL := locally_locally _ _ L). split; [rewrite <- (locally_singleton _ _ L); exact Z|]. exists K, K', K''. split; [|split; [|split; [|exact D]]].
  - pose proof (filter_and _ _ LL A) as W. unfold bulk_modulus_near, pressure_derivative_near in *. revert W. apply filter_imp. intros V (LV & DV). exact (is_derive_ext_loc _ _ _ _ LV DV).
  - pose proof (filter_and _ _ LL B) as W. unfold bulk_modulus_near, pressure_derivative_near in *. revert W. apply filter_imp. intros V (LV & dP & DP & DQ). exists dP. split; [exact (is_derive_ext_loc _ _ _ _ LV DP)|exact DQ].
  - pose proof (filter_and _ _ LL C) as W. unfold bulk_modulus_near, pressure_derivative_near in *. revert W. apply filter_imp. intros V (LV & dP & DP & DQ). exists dP. split; [exact (is_derive_ext_loc _ _ _ _ LV DP)|exact DQ].
Qed.
Lemma zeros_imp_above f g : forall l a, (forall x, a < x -> f x = 0 -> g x = 0) -> zeros_from a f l -> zeros_from a g l.
Proof.
  induction l as [|x l IH]; intros a FG; cbn; [auto|]. intros (A & B & C). split; [exact A|]. split; [auto|]. apply IH; [|exact C]. intros y Y. apply FG. lra.
Qed.
Lemma tait_told b m A B b' m' A' B' l : 0 < A -> 0 < A' -> 0 < b * m -> 0 < b' * m' -> m + 1 <> 0 -> m' + 1 <> 0 -> NoDup l -> (4 <= List.length l)%nat ->
  (forall V, In V l -> B < V /\ B' < V /\ b * (exp (- m * ln ((V - B) / A)) - 1) = b' * (exp (- m' * ln ((V - B') / A')) - 1)) -> b = b' /\ m = m' /\ A = A' /\ B = B'.
Proof.
  intros PA PA' PM PM' Z Z' ND L H. set (a := Rmax B B'). assert (AB : B <= a) by apply Rmax_l. assert (AB' : B' <= a) by apply Rmax_r.
  assert (NM : m <> 0) by (intros ->; lra). assert (NM' : m' <> 0) by (intros ->; lra).
  set (x := fun V => (V - B) / A). set (x' := fun V => (V - B') / A'). assert (PX : forall V, a < V -> 0 < x V) by (intros; apply Rdiv_lt_0_compat; lra). assert (PX' : forall V, a < V -> 0 < x' V) by (intros; apply Rdiv_lt_0_compat; lra).
  set (f := fun V => b * (exp (- m * ln (x V)) - 1) - b' * (exp (- m' * ln (x' V)) - 1)).
  destruct (enough_zeros a f l 4) as (n & LN & ZN); [assumption| |assumption|].
  { intros V I. destruct (H V I) as (U & U' & E). split; [unfold a; now apply Rmax_lub_lt|]. unfold f, x, x'. lra. }
  set (f1 := fun V => - (b * m / A) * exp (- (m + 1) * ln (x V)) - - (b' * m' / A') * exp (- (m' + 1) * ln (x' V))).
  destruct (rolle_zeros f f1 a n) as (n1 & L1 & Z1); [|exact ZN|].
  { intros V HV. pose proof (PX V HV) as X. pose proof (PX' V HV) as X'. unfold f, f1. 
    replace (- (m + 1) * ln (x V)) with (- m * ln (x V) + - ln (x V)) by ring. replace (- (m' + 1) * ln (x' V)) with (- m' * ln (x' V) + - ln (x' V)) by ring. rewrite !exp_plus, (exp_Ropp (ln (x V))), (exp_Ropp (ln (x' V))), !exp_ln by assumption.
    unfold x, x' in *. auto_derive; [unfold Rdiv in X, X'; unfold Rminus in X, X'; split; [exact X|split; [exact X'|exact I]]|]. unfold Rminus, Rdiv. field. repeat split; lra. }
  set (k := b * m / A). set (k' := b' * m' / A'). assert (PK : 0 < k) by (apply Rdiv_lt_0_compat; assumption). assert (PK' : 0 < k') by (apply Rdiv_lt_0_compat; assumption).
  set (g := fun V => ln k - (m + 1) * ln (x V) - (ln k' - (m' + 1) * ln (x' V))).
  assert (FG : forall V, f1 V = 0 -> g V = 0).
  { intros V F. unfold f1 in F. fold k k' in F. assert (Q : k * exp (- (m + 1) * ln (x V)) = k' * exp (- (m' + 1) * ln (x' V))) by lra. apply (f_equal ln) in Q. rewrite !ln_mult, !ln_exp in Q by (assumption || apply exp_pos). unfold g. lra. }
  apply (zeros_imp_above f1 g) in Z1; [|auto].
  set (g1 := fun V => (m' + 1) / (V - B') - (m + 1) / (V - B)).
  destruct (rolle_zeros g g1 a n1) as (n2 & L2 & Z2); [|exact Z1|].
  { intros V HV. pose proof (PX V HV) as X. pose proof (PX' V HV) as X'. unfold g, g1. unfold x, x' in *. auto_derive; [unfold Rdiv in X, X'; unfold Rminus in X, X'; split; [exact X|split; [exact X'|exact I]]|]. unfold Rminus, Rdiv. field. repeat split; lra. }
  assert (LL : forall V, a < V -> g1 V = 0 -> (m' + 1) * (V - B) = (m + 1) * (V - B')).
  { intros V HV Q. unfold g1 in Q. apply Rminus_diag_uniq. transitivity (((m' + 1) / (V - B') - (m + 1) / (V - B)) * ((V - B') * (V - B))); [field; lra|]. rewrite Q. ring. }
  destruct n2 as [|s1 [|s2 n2]]; cbn in L2; try lia. cbn [zeros_from] in Z2. destruct Z2 as (S0 & F1 & S12 & F2 & _). apply LL in F1; [|lra]. apply LL in F2; [|lra].
  assert (M : m = m') by (assert (Q : (m' - m) * (s2 - s1) = 0) by lra; apply Rmult_integral in Q as [|]; lra). subst m'.
  assert (BB : B = B') by (apply Rmult_eq_reg_l in F1; lra). subst B'.
  destruct n1 as [|V n1]; cbn in L1; try lia. cbn [zeros_from] in Z1. destruct Z1 as (V1 & G1 & _). unfold g, x, x' in G1.
  assert (LX : forall A V, 0 < A -> B < V -> ln ((V - B) / A) = ln (V - B) - ln A) by (intros; apply ln_ratio; lra).
  rewrite !LX in G1 by lra.
  assert (EB : b * exp (m * ln A) = b' * exp (m * ln A')).
  { apply Rmult_eq_reg_r with m; [|assumption]. transitivity (exp (ln (b * m) + m * ln A)); [rewrite exp_plus, exp_ln by assumption; ring|]. transitivity (exp (ln (b' * m) + m * ln A')); [|rewrite exp_plus, exp_ln by assumption; ring].
    f_equal. unfold k, k' in G1. rewrite !ln_ratio in G1 by assumption. lra. }
  destruct n as [|U n]; cbn in LN; try lia. cbn [zeros_from] in ZN. destruct ZN as (U1 & FU & _). unfold f, x, x' in FU. rewrite !LX in FU by lra.
  replace (- m * (ln (U - B) - ln A)) with (m * ln A + - m * ln (U - B)) in FU by ring. replace (- m * (ln (U - B) - ln A')) with (m * ln A' + - m * ln (U - B)) in FU by ring. rewrite !exp_plus in FU.
  assert (E : b = b') by (pose proof (f_equal (fun z => z * exp (- m * ln (U - B))) EB) as W; cbv beta in W; lra). subst b'.
  split; [reflexivity|]. split; [reflexivity|]. split; [|reflexivity]. assert (b <> 0) by (intros ->; lra). apply Rmult_eq_reg_l in EB; [|assumption]. apply exp_injective in EB. apply Rmult_eq_reg_l in EB; [|assumption]. now apply ln_inv.
Qed.
(** The curve exists at all of the volumes, and beyond them. *)
Definition tait_sound (r : pars) (vs : list R) : Prop := sound r /\ tait_regular r /\ 0 < tait_a r /\ forall V, In V vs -> tait_domain r V.
Lemma tait_form p o l V : let r := used tait p o l in sound r -> tait_regular r -> 0 < tait_a r ->
  curve tait p o l true V = / tait_b r * (exp (- (/ tait_c r) * ln ((V - V0 r * (1 - tait_a r)) / (V0 r * tait_a r))) - 1).
Proof.
  intros r (A & B) (R1 & R2 & R3) T. change (curve tait p o l true V) with (1 / tait_b r * (Rpower ((V / V0 r + tait_a r - 1) / tait_a r) (-1 / tait_c r) - 1)).
  unfold Rpower. replace ((V / V0 r + tait_a r - 1) / tait_a r) with ((V - V0 r * (1 - tait_a r)) / (V0 r * tait_a r)) by (field; lra). unfold Rdiv. rewrite Rmult_1_l. replace (-1 * / tait_c r) with (- / tait_c r) by ring. reflexivity.
Qed.
Theorem C105_tait p q o l vs : let r := used tait p o l in let r' := used tait q o l in
  volumes 4 vs -> tait_sound r vs -> tait_sound r' vs -> agree (curve tait p o l true) (curve tait q o l true) vs -> r = r'.
Proof.
  intros r r' (ND & L & PV) (S & T & PA & D) (S' & T' & PA' & D') H. pose proof S as (A & B). pose proof S' as (A' & B'). pose proof T as (R1 & R2 & R3). pose proof T' as (Q1 & Q2 & Q3).
  assert (PB : forall z, sound z -> tait_regular z -> 0 < tait_a z -> 0 < / tait_b z * / tait_c z /\ / tait_c z + 1 <> 0).
  { intros z (Z1 & Z2) (Y1 & Y2 & Y3) Z3. split.
    - replace (/ tait_b z * / tait_c z) with (K0 z * tait_a z); [now apply Rmult_lt_0_compat|]. assert (EB : tait_b z = (K1 z ^ 2 + K1 z - K0 z * K2 z) / (K0 z * (1 + K1 z))) by (unfold tait_b; field; split; [assumption|lra]).
      rewrite EB. unfold tait_a, tait_c. field. repeat split; try assumption; lra.
    - replace (/ tait_c z + 1) with ((1 + K1 z) ^ 2 / (1 + K1 z + K0 z * K2 z)); [|unfold tait_c; field; auto]. apply Rmult_integral_contrapositive_currified; [now apply pow_nonzero|now apply Rinv_neq_0_compat]. }
  destruct (PB r S T PA) as (M & N). destruct (PB r' S' T' PA') as (M' & N').
  assert (DM : forall z V, sound z -> 0 < tait_a z -> tait_domain z V -> V0 z * (1 - tait_a z) < V).
  { intros z V (Z1 & Z2) Z3 Z4. unfold tait_domain in Z4. assert (Z5 : 0 < V / V0 z + tait_a z - 1). { replace (V / V0 z + tait_a z - 1) with ((V / V0 z + tait_a z - 1) / tait_a z * tait_a z) by (field; lra). now apply Rmult_lt_0_compat. }
    assert (Z6 : 0 < V0 z * (V / V0 z + tait_a z - 1)) by now apply Rmult_lt_0_compat. replace (V0 z * (V / V0 z + tait_a z - 1)) with (V - V0 z * (1 - tait_a z)) in Z6 by (field; lra). lra. }
  destruct (tait_told (/ tait_b r) (/ tait_c r) (V0 r * tait_a r) (V0 r * (1 - tait_a r)) (/ tait_b r') (/ tait_c r') (V0 r' * tait_a r') (V0 r' * (1 - tait_a r')) vs) as (E1 & E2 & E3 & E4); try assumption; try (apply Rmult_lt_0_compat; assumption).
  { intros V I. split; [auto|]. split; [auto|]. pose proof (H V I) as HV. rewrite !tait_form in HV by assumption. exact HV. }
  assert (EV : V0 r = V0 r') by lra.
  assert (C : forall V, curve tait p o l true V = curve tait q o l true V) by (intros V; rewrite !tait_form by assumption; fold r r'; rewrite E1, E2, E3, E4; reflexivity).
  pose proof (pars_kept tait p (V0 p) o l true ltac:(cbn; auto 7)) as (_ & K & U). pose proof (pars_kept tait q (V0 q) o l true ltac:(cbn; auto 7)) as (_ & K' & U').
  change (K0 r = K0 p) in K. change (V0 r = V0 p) in U. change (K0 r' = K0 q) in K'. change (V0 r' = V0 q) in U'.
  pose proof (C16_tait p o l true ltac:(split; [lra|lra]) T) as X. pose proof (C16_tait q o l true ltac:(split; [lra|lra]) T') as X'. fold r in X. fold r' in X'. cbv zeta in X, X'.
  apply (reference_state_ext _ (curve tait q o l true)) in X; [|now apply locally_all]. rewrite <- EV in X'.
  destruct (reference_state_unique _ _ _ _ _ _ _ _ B (Rgt_not_eq _ _ A) X X') as (G0 & G1 & G2). destruct r, r'. cbn in *. congruence.
Qed.

(** ** Fourth order *)
Lemma cubic_vanishes a b c d l : NoDup l -> (4 <= List.length l)%nat -> (forall s, In s l -> a * s ^ 3 + b * s ^ 2 + c * s + d = 0) -> forall s, a * s ^ 3 + b * s ^ 2 + c * s + d = 0.
Proof.
  intros ND L H. destruct l as [|x l]; cbn in L; [lia|]. inversion ND as [|? ? N1 ND1]; subst. pose proof (H x ltac:(cbn; auto)) as HX.
  destruct (quadratic_vanishes a (a * x + b) (a * x ^ 2 + b * x + c) l ND1 ltac:(lia)) as (A & B & C).
  { intros s S. assert (SX : s <> x) by (intros ->; contradiction). apply Rmult_eq_reg_l with (s - x); [|lra]. rewrite Rmult_0_r. pose proof (H s ltac:(cbn; auto)) as HS. rewrite <- (Rminus_diag_eq _ _ (eq_trans HS (eq_sym HX))). ring. }
  intros s. subst a. assert (b = 0) by lra. subst b. assert (c = 0) by lra. subst c. lra.
Qed.
Lemma cubic_told D w c d D' w' c' d' l : NoDup l -> (4 <= List.length l)%nat ->
  (forall s, In s l -> D * (s - w) * (1 + c * (s - w) + d * (s - w) ^ 2) = D' * (s - w') * (1 + c' * (s - w') + d' * (s - w') ^ 2)) ->
  forall s, D * (s - w) * (1 + c * (s - w) + d * (s - w) ^ 2) = D' * (s - w') * (1 + c' * (s - w') + d' * (s - w') ^ 2).
Proof.
  intros ND L H s. apply Rminus_diag_uniq.
  pose proof (cubic_vanishes (D * d - D' * d') (D * (c - 3 * d * w) - D' * (c' - 3 * d' * w')) (D * (1 - 2 * c * w + 3 * d * w ^ 2) - D' * (1 - 2 * c' * w' + 3 * d' * w' ^ 2))
    (D * (- w + c * w ^ 2 - d * w ^ 3) - D' * (- w' + c' * w' ^ 2 - d' * w' ^ 3)) l ND L) as Q.
  rewrite <- (Q ltac:(intros z Z; rewrite <- (Rminus_diag_eq _ _ (H z Z)); ring) s). ring.
Qed.
(** Each of the two curves is a cubic in a function of the volume, times one of it. *)
Lemma bm_cubic p o l V : let r := used birch_murnaghan p o l in let a := exp (2 / 3 * ln (V0 r)) in sound p -> 0 < V ->
  curve birch_murnaghan p o l true V = exp (- (5 / 3) * ln V) * (3 / 2 * K0 r * exp (5 / 3 * ln (V0 r)) * a * (exp (- (2 / 3) * ln V) - / a)
    * (1 + 3 / 4 * (K1 r - 4) * a * (exp (- (2 / 3) * ln V) - / a) + 3 / 8 * (K0 r * K2 r + (K1 r - 4) * (K1 r - 3) + 35 / 9) * a ^ 2 * (exp (- (2 / 3) * ln V) - / a) ^ 2)).
Proof.
  intros r a (A & B) PV. assert (PU : 0 < V0 r) by (destruct (pars_kept birch_murnaghan p (V0 p) o l true ltac:(cbn; auto)) as (_ & _ & E); change (V0 r = V0 p) in E; lra).
  change (curve birch_murnaghan p o l true V) with (bm_curve (K0 r) (K1 r) (K2 r) (V0 r) V). unfold bm_curve. cbv zeta.
  replace (1 + 2 * (1 / 2 * (Rpower (V0 r / V) (2 / 3) - 1))) with (Rpower (V0 r / V) (2 / 3)) by field. rewrite Rpower_mult. replace (2 / 3 * (5 / 2)) with (5 / 3) by field.
  unfold Rpower. rewrite ln_ratio by assumption. replace (5 / 3 * (ln (V0 r) - ln V)) with (5 / 3 * ln (V0 r) + - (5 / 3) * ln V) by field. replace (2 / 3 * (ln (V0 r) - ln V)) with (2 / 3 * ln (V0 r) + - (2 / 3) * ln V) by field.
  rewrite !exp_plus. fold a. assert (0 < a) by apply exp_pos. field. lra.
Qed.
Lemma ns_cubic p o l V : let r := used natural_strain p o l in sound p -> 0 < V ->
  curve natural_strain p o l true V = / V * (K0 r * V0 r * (- ln V - - ln (V0 r)) * (1 + (K1 r - 2) / 2 * (- ln V - - ln (V0 r)) + (1 + K2 r * K0 r + (K1 r - 2) + (K1 r - 2) ^ 2) / 6 * (- ln V - - ln (V0 r)) ^ 2)).
Proof.
  intros r (A & B) PV. assert (PU : 0 < V0 r) by (destruct (pars_kept natural_strain p (V0 p) o l true ltac:(cbn; auto)) as (_ & _ & E); change (V0 r = V0 p) in E; lra).
  change (curve natural_strain p o l true V) with (ns_curve (K0 r) (K1 r) (K2 r) (V0 r) V). unfold ns_curve. cbv zeta. rewrite ln_ratio by assumption. field. lra.
Qed.
(** Pressures at four volumes fix the whole curve; and the parameters, once the
    volume at zero pressure is known. *)
Theorem C105_fourth e p q o l vs : e = birch_murnaghan \/ e = natural_strain -> volumes 4 vs -> sound p -> sound q -> agree (curve e p o l true) (curve e q o l true) vs ->
  (forall V, 0 < V -> curve e p o l true V = curve e q o l true V) /\ (V0 p = V0 q -> used e p o l = used e q o l).
Proof.
  intros E (ND & L & PV) S S' H. assert (C : forall V, 0 < V -> curve e p o l true V = curve e q o l true V).
  { intros V HV. destruct E as [-> | ->].
    - rewrite !bm_cubic by assumption. cbv zeta. f_equal. apply (cubic_told _ _ _ _ _ _ _ _ (map (fun V => exp (- (2 / 3) * ln V)) vs)).
      + apply map_distinct; [|assumption]. intros x y X Y Q. apply exp_injective in Q. apply ln_inv; auto. lra.
      + now rewrite map_length.
      + intros s I. apply in_map_iff in I as (U & <- & I). pose proof (H U I) as HU. rewrite !bm_cubic in HU by auto. apply Rmult_eq_reg_l in HU; [exact HU|]. apply Rgt_not_eq, exp_pos.
    - rewrite !ns_cubic by assumption. cbv zeta. f_equal. apply (cubic_told _ _ _ _ _ _ _ _ (map (fun V => - ln V) vs)).
      + apply map_distinct; [|assumption]. intros x y X Y Q. apply ln_inv; auto. lra.
      + now rewrite map_length.
      + intros s I. apply in_map_iff in I as (U & <- & I). pose proof (H U I) as HU. rewrite !ns_cubic in HU by auto. apply Rmult_eq_reg_l in HU; [exact HU|]. apply Rinv_neq_0_compat, Rgt_not_eq. now apply PV. }
  split; [exact C|]. intros EV. pose proof S as (A & B). pose proof S' as (A' & B').
  assert (IN : In e [murnaghan; birch_murnaghan; natural_strain; vinet; tait]) by (destruct E as [-> | ->]; cbn; auto).
  destruct (pars_kept e p (V0 p) o l true IN) as (_ & K & U). destruct (pars_kept e q (V0 q) o l true IN) as (_ & K' & U').
  assert (X : reference_state (curve e p o l true) (V0 (used e p o l)) (K0 (used e p o l)) (K1 (used e p o l)) (K2 (used e p o l))) by (destruct E as [-> | ->]; [apply C16_birch_murnaghan|apply C16_natural_strain]; split; lra).
  assert (X' : reference_state (curve e q o l true) (V0 (used e q o l)) (K0 (used e q o l)) (K1 (used e q o l)) (K2 (used e q o l))) by (destruct E as [-> | ->]; [apply C16_birch_murnaghan|apply C16_natural_strain]; split; lra).
  fold (used e p o l) in K, U. fold (used e q o l) in K', U'. set (r := used e p o l) in *. set (r' := used e q o l) in *.
  apply (reference_state_ext _ (curve e q o l true)) in X; [|rewrite U; generalize (locally_pos _ B); apply filter_imp; exact C].
  assert (EE : V0 r = V0 r') by congruence. rewrite <- EE in X'. assert (PB : 0 < V0 r) by (rewrite U; exact B). assert (PK : K0 r <> 0) by (rewrite K; lra).
  destruct (reference_state_unique _ _ _ _ _ _ _ _ PB PK X X') as (G0 & G1 & G2). destruct r, r'. cbn in *. congruence.
Qed.
(** But the pressures do not tell that volume: two solids, of which one is eight
    times as large as the other, or more, and much softer, have the same pressures at all volumes. *)
Definition bm_wide := {| K0 := 1; K1 := 20 / 9; K2 := - (355 / 81); V0 := 1 |}.
Definition bm_dense := {| K0 := 256; K1 := 76 / 9; K2 := - (1699 / (81 * 256)); V0 := / 8 |}.
Definition ns_wide := {| K0 := 1; K1 := 1; K2 := - (2 / 3); V0 := 1 |}.
Definition ns_dense := {| K0 := exp 6; K1 := 3; K2 := - (8 / 3) * exp (- 6); V0 := exp (- 6) |}.
Theorem C105_fourth_refuted o l : (4 <= o)%nat ->
  (sound bm_wide /\ sound bm_dense /\ V0 bm_wide = 8 * V0 bm_dense /\ K0 bm_dense = 256 * K0 bm_wide /\
    forall V, 0 < V -> curve birch_murnaghan bm_wide o l true V = curve birch_murnaghan bm_dense o l true V) /\
  (sound ns_wide /\ sound ns_dense /\ V0 ns_wide = exp 6 * V0 ns_dense /\ K0 ns_dense = exp 6 * K0 ns_wide /\
    forall V, 0 < V -> curve natural_strain ns_wide o l true V = curve natural_strain ns_dense o l true V).
Proof.
  intros O. assert (O4 : (o <? 4)%nat = false) by (apply Nat.ltb_ge; exact O). assert (O2 : (o =? 2)%nat = false) by (apply Nat.eqb_neq; lia).
  assert (E6 : exp (- 6) * exp 6 = 1) by (rewrite <- exp_plus; replace (-6 + 6) with 0 by ring; apply exp_0).
  split; (split; [|split; [|split; [|split]]]).
  - split; cbn; lra.
  - split; cbn; lra.
  - cbn. lra.
  - cbn. lra.
  - assert (S : sound bm_wide) by (split; cbn; lra). assert (S' : sound bm_dense) by (split; cbn; lra). intros V PV. rewrite !bm_cubic by assumption. cbv zeta.
    assert (U1 : used birch_murnaghan bm_wide o l = bm_wide) by (unfold left_by, birch_murnaghan, bm_pars, second_order; rewrite O4, O2; reflexivity).
    assert (U2 : used birch_murnaghan bm_dense o l = bm_dense) by (unfold left_by, birch_murnaghan, bm_pars, second_order; rewrite O4, O2; reflexivity).
    rewrite U1, U2. unfold bm_wide, bm_dense. cbn [K0 K1 K2 V0].
    assert (L8 : ln (/ 8) = - 3 * ln 2) by (rewrite ln_Rinv by lra; replace 8 with (2 * 2 * 2) by ring; rewrite !ln_mult by lra; ring).
    assert (E2 : exp (2 / 3 * ln (/ 8)) = / 4). { rewrite L8. replace (2 / 3 * (-3 * ln 2)) with (- (ln 2 + ln 2)) by field. rewrite exp_Ropp, exp_plus, exp_ln by lra. lra. }
    assert (E5 : exp (5 / 3 * ln (/ 8)) = / 32). { rewrite L8. replace (5 / 3 * (-3 * ln 2)) with (- (ln 2 + ln 2 + ln 2 + ln 2 + ln 2)) by field. rewrite exp_Ropp, !exp_plus, exp_ln by lra. lra. }
    rewrite E2, E5, ln_1, !Rmult_0_r, exp_0. f_equal. field.
  - split; cbn; lra.
  - split; cbn; apply exp_pos.
  - cbn. lra.
  - cbn. lra.
  - assert (S : sound ns_wide) by (split; cbn; lra). assert (S' : sound ns_dense) by (split; cbn; apply exp_pos). intros V PV. rewrite !ns_cubic by assumption. cbv zeta.
    assert (U1 : used natural_strain ns_wide o l = ns_wide) by (unfold left_by, natural_strain, ns_pars, second_order; rewrite O4, O2; reflexivity).
    assert (U2 : used natural_strain ns_dense o l = ns_dense) by (unfold left_by, natural_strain, ns_pars, second_order; rewrite O4, O2; reflexivity).
    rewrite U1, U2. unfold ns_wide, ns_dense. cbn [K0 K1 K2 V0]. rewrite ln_exp, ln_1. f_equal. replace (exp 6 * exp (- 6)) with 1 by lra. replace (- (8 / 3) * exp (-6) * exp 6) with (- (8 / 3)) by (rewrite Rmult_assoc, E6; ring). field.
Qed.

(** ** The fit *)
(** What scipy's ODR is asked to make small (pv_eos.py:108-148): the squares of the
    residuals of pressures, weighted, and for orthogonal distances also those of the
    shifts of the volumes. [wt] and [wv] are the weights, positive. *)
Record datum := { vol : R; prs : R; wt : R; wv : R }.
Definition squares (P : R -> R) (data : list datum) (shift : R -> R) : R :=
  fold_right Rplus 0 (map (fun d => wt d * (P (vol d + shift (vol d)) - prs d) ^ 2 + wv d * shift (vol d) ^ 2) data).
Definition weighted (data : list datum) : Prop := forall d, In d data -> 0 < wt d /\ 0 < wv d.
(** The parameters and shifts returned are no worse than those of the solid. *)
Definition as_good (e : eos_method) (o : nat) (l : bool) (data : list datum) (p q : pars) (shift : R -> R) : Prop :=
  squares (curve e q o l true) data shift <= squares (curve e p o l true) data (fun _ => 0).
Definition measured (e : eos_method) (o : nat) (l : bool) (p : pars) (data : list datum) : Prop := forall d, In d data -> prs d = curve e p o l true (vol d).
Lemma squares_nonneg P data shift : weighted data -> 0 <= squares P data shift.
Proof.
  unfold squares. induction data as [|d r IH]; intros W; cbn; [lra|]. destruct (W d ltac:(cbn; auto)). assert (0 <= squares P r shift) by (apply IH; intros x X; apply W; cbn; auto). unfold squares in *.
  pose proof (pow2_ge_0 (P (vol d + shift (vol d)) - prs d)). pose proof (pow2_ge_0 (shift (vol d))). cbn in *. nra.
Qed.
Lemma squares_zero P data shift : weighted data -> squares P data shift <= 0 -> forall d, In d data -> P (vol d) = prs d.
Proof.
  induction data as [|d r IH]; intros W Z x X; [contradiction|]. destruct (W d ltac:(cbn; auto)) as (W1 & W2). assert (WR : weighted r) by (intros y Y; apply W; cbn; auto). pose proof (squares_nonneg P r shift WR) as N.
  assert (Z' : wt d * (P (vol d + shift (vol d)) - prs d) ^ 2 + wv d * shift (vol d) ^ 2 + squares P r shift <= 0) by exact Z.
  pose proof (pow2_ge_0 (P (vol d + shift (vol d)) - prs d)) as N1. pose proof (pow2_ge_0 (shift (vol d))) as N2. pose proof (Rmult_le_pos _ _ (Rlt_le _ _ W1) N1) as N3. pose proof (Rmult_le_pos _ _ (Rlt_le _ _ W2) N2) as N4.
  destruct X as [<-|X]; [|apply IH; auto; lra].
  assert (S0 : shift (vol d) ^ 2 = 0) by (apply Rmult_eq_reg_l with (wv d); lra). assert (R0 : (P (vol d + shift (vol d)) - prs d) ^ 2 = 0) by (apply Rmult_eq_reg_l with (wt d); lra).
  assert (S1 : shift (vol d) = 0) by nra. rewrite S1, Rplus_0_r in R0. nra.
Qed.
Lemma squares_exact e o l p data : measured e o l p data -> squares (curve e p o l true) data (fun _ => 0) = 0.
Proof.
  induction data as [|d r IH]; intros M; [reflexivity|]. change (wt d * (curve e p o l true (vol d + 0) - prs d) ^ 2 + wv d * 0 ^ 2 + squares (curve e p o l true) r (fun _ => 0) = 0).
  rewrite IH by (intros x X; apply M; cbn; auto). rewrite !Rplus_0_r, (M d) by (cbn; auto). ring.
Qed.
(** Measurements without error: a fit which is as good as the solid's own curve
    returns the parameters of the solid, whatever the weights and the starting point. *)
Theorem C105_recovers e o n l p q data shift : enough e o n -> volumes n (map vol data) -> sound p -> sound q -> (e = murnaghan -> K1 p <> 0 /\ K1 q <> 0) ->
  weighted data -> measured e o l p data -> as_good e o l data p q shift -> used e q o l = used e p o l.
Proof.
  intros E VS S S' M W ME G. unfold as_good in G. rewrite (squares_exact e o l p data ME) in G. symmetry.
  apply (C105_determined e o n p q l (map vol data)); auto. intros V I. apply in_map_iff in I as (d & <- & I). rewrite <- (ME d I). symmetry. exact (squares_zero _ _ _ W G d I).
Qed.
Theorem C105_recovers_tait p q o l data shift : volumes 4 (map vol data) -> tait_sound (used tait p o l) (map vol data) -> tait_sound (used tait q o l) (map vol data) ->
  weighted data -> measured tait o l p data -> as_good tait o l data p q shift -> used tait q o l = used tait p o l.
Proof.
  intros VS S S' W ME G. unfold as_good in G. rewrite (squares_exact tait o l p data ME) in G. symmetry.
  apply (C105_tait p q o l (map vol data)); auto. intros V I. apply in_map_iff in I as (d & <- & I). rewrite <- (ME d I). symmetry. exact (squares_zero _ _ _ W G d I).
Qed.
(** At fourth order such a fit may return the other solid. *)
Theorem C105_recovers_refuted o l data : (4 <= o)%nat -> (forall d, In d data -> 0 < vol d) -> measured birch_murnaghan o l bm_wide data ->
  as_good birch_murnaghan o l data bm_wide bm_dense (fun _ => 0) /\ V0 (used birch_murnaghan bm_dense o l) <> V0 (used birch_murnaghan bm_wide o l).
Proof.
  intros O PV ME. destruct (C105_fourth_refuted o l O) as ((_ & _ & _ & _ & C) & _). split.
  - unfold as_good. rewrite (squares_exact _ _ _ _ _ ME), (squares_exact birch_murnaghan o l bm_dense data); [lra|]. intros d I. rewrite (ME d I). apply C. auto.
  - destruct (pars_kept birch_murnaghan bm_dense (V0 bm_dense) o l true ltac:(cbn; auto)) as (_ & _ & E). destruct (pars_kept birch_murnaghan bm_wide (V0 bm_wide) o l true ltac:(cbn; auto)) as (_ & _ & E').
    fold (used birch_murnaghan bm_dense o l) in E. fold (used birch_murnaghan bm_wide o l) in E'. rewrite E, E'. cbn. lra.
Qed.

(** ** Cases *)
Definition mgo := {| K0 := 160; K1 := 4; K2 := 0; V0 := 75 |}.
Lemma sound_mgo : sound mgo. Proof. split; cbn; lra. Qed.
Lemma four_volumes : volumes 4 [60; 65; 70; 75].
Proof. split; [|split; [cbn; lia|]]; [repeat constructor; cbn; intuition lra|]. intros V I. cbn in I. intuition lra. Qed.
(** The pressures of the curve at four volumes are those of no other parameters. *)
Example C105_instance_determined e q : In e [murnaghan; birch_murnaghan; natural_strain; vinet] -> sound q -> K1 q <> 0 ->
  agree (curve e mgo 3 false true) (curve e q 3 false true) [60; 65; 70; 75] -> K0 q = 160 /\ K1 q = 4 /\ V0 q = 75.
Proof.
  intros I S Z H. assert (Q : used e mgo 3 false = used e q 3 false).
  { cbn in I. decompose [or] I; try contradiction; subst e.
    - apply (C105_determined murnaghan 3 3 mgo q false [60; 65; 70; 75]); auto using sound_mgo; [left; auto|destruct four_volumes as (A & B & C); split; [exact A|split; [cbn; lia|exact C]]|intros _; split; [cbn; lra|exact Z]].
    - apply (C105_determined birch_murnaghan 3 3 mgo q false [60; 65; 70; 75]); auto using sound_mgo; [right; left; auto|destruct four_volumes as (A & B & C); split; [exact A|split; [cbn; lia|exact C]]|intros _; split; [cbn; lra|exact Z]].
    - apply (C105_determined natural_strain 3 3 mgo q false [60; 65; 70; 75]); auto using sound_mgo; [right; right; left; auto|destruct four_volumes as (A & B & C); split; [exact A|split; [cbn; lia|exact C]]|intros _; split; [cbn; lra|exact Z]].
    - apply (C105_determined vinet 3 4 mgo q false [60; 65; 70; 75]); auto using sound_mgo, four_volumes; [right; right; right; auto|intros _; split; [cbn; lra|exact Z]]. }
  cbn in I. decompose [or] I; try contradiction; subst e; apply (f_equal (fun r => (K0 r, K1 r, V0 r))) in Q; injection Q; auto.
Qed.
Example C105_instance_tait q : let r := used tait mgo 3 false in
  tait_sound r [60; 65; 70; 75] /\ (tait_sound (used tait q 3 false) [60; 65; 70; 75] -> agree (curve tait mgo 3 false true) (curve tait q 3 false true) [60; 65; 70; 75] -> K0 q = 160 /\ K1 q = 4 /\ V0 q = 75).
Proof.
  cbv zeta. assert (S : tait_sound (used tait mgo 3 false) [60; 65; 70; 75]).
  { split; [split; cbn; lra|]. split; [unfold tait_regular; cbn; repeat split; lra|]. assert (TA : tait_a (used tait mgo 3 false) = 5) by (unfold tait_a; cbn; field). split; [lra|]. intros V I. unfold tait_domain. rewrite TA. cbn. cbn in I. decompose [or] I; try contradiction; subst V; lra. }
  split; [exact S|]. intros S' H. pose proof (C105_tait mgo q 3 false [60; 65; 70; 75] four_volumes S S' H) as Q. apply (f_equal (fun r => (K0 r, K1 r, V0 r))) in Q. injection Q. auto.
Qed.
(** The two solids of [C105_fourth_refuted] are both at rest, and stable, each at its own volume. *)
Example C105_instance_fourth : curve birch_murnaghan bm_wide 4 false true (V0 bm_wide) = 0 /\ curve birch_murnaghan bm_dense 4 false true (V0 bm_dense) = 0 /\
  curve birch_murnaghan bm_wide 4 false true (V0 bm_dense) = 0.
Proof.
  assert (S : sound bm_wide) by (split; cbn; lra). assert (S' : sound bm_dense) by (split; cbn; lra).
  assert (Z : forall p, sound p -> curve birch_murnaghan p 4 false true (V0 p) = 0) by (intros p (A & B); exact (proj1 (C16_birch_murnaghan p 4 false true (conj B (Rgt_not_eq _ _ A))))).
  split; [now apply Z|]. split; [now apply Z|]. destruct (C105_fourth_refuted 4 false (le_n 4)) as ((_ & _ & _ & _ & C) & _). rewrite C by apply S'. now apply Z.
Qed.
Definition mgo_data (e : eos_method) := map (fun V => {| vol := V; prs := curve e mgo 3 false true V; wt := 4; wv := 2 |}) [60; 65; 70; 75].
Example C105_instance_recovers q shift : sound q -> as_good vinet 3 false (mgo_data vinet) mgo q shift -> K0 q = 160 /\ K1 q = 4 /\ V0 q = 75.
Proof.
  intros S G. assert (Q : used vinet q 3 false = used vinet mgo 3 false).
  { apply (C105_recovers vinet 3 4 false mgo q (mgo_data vinet) shift); auto using sound_mgo.
    - right; right; right; auto.
    - exact four_volumes.
    - intros X. exfalso. apply (f_equal (fun e => K2 (fst (e {| K0 := 1; K1 := 3; K2 := 0; V0 := 1 |} 1 3%nat false true)))) in X. cbn in X. lra.
    - intros d I. cbn in I. decompose [or] I; try contradiction; subst d; cbn; lra.
    - intros d I. cbn in I. decompose [or] I; try contradiction; subst d; reflexivity. }
  apply (f_equal (fun r => (K0 r, K1 r, V0 r))) in Q. injection Q. auto.
Qed.

Print Assumptions C105_determined.
Print Assumptions C105_tait.
Print Assumptions C105_fourth.
Print Assumptions C105_fourth_refuted.
Print Assumptions C105_recovers.
Print Assumptions C105_recovers_tait.
Print Assumptions C105_recovers_refuted.
