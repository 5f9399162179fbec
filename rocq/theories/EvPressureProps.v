(** Property C104: the equation of state fitted to F + PV at a pressure P. *)
From Coq Require Import Reals String List Lra Lia Bool Arith Psatz.
From Coquelicot Require Import Coquelicot.
From Verif Require Import PolyModel PolyProps PolyfitProofs PvEosProofs PvEosProps EvEosModel QhaRunModel ReportModel UnitsModel GuessModel GuessProps EvIdentProps.
From Verif Require PvEosModel EvEosProps QhaCommandModel.
Import ListNotations.
Open Scope string_scope.
Open Scope list_scope.
Open Scope R_scope.

(** ** Murnaghan *)
(** The parameters at the pressure P: K0 + K' P, the same K', and the volume at which
    the equation of state has the pressure P. *)
Definition at_pressure (p : parameters) (P : R) : parameters :=
  let k := k0 p + k1 p * P in
  let v := v0 p * Rpower (1 + k1 p * P / k0 p) (-1 / k1 p) in
  {| e0 := energy ev_murnaghan p v + P * v; k0 := k; k1 := k1 p; v0 := v |}.
Lemma compressed p P : physical p -> k1 p <> 0 -> 0 < k0 p + k1 p * P ->
  let v := v0 (at_pressure p P) in 0 < v /\ exp (k1 p * ln v) = exp (k1 p * ln (v0 p)) * (k0 p / (k0 p + k1 p * P)).
Proof.
  intros (A & B) K C v.
  assert (Q : 0 < 1 + k1 p * P / k0 p). { replace (1 + k1 p * P / k0 p) with ((k0 p + k1 p * P) / k0 p) by (field; lra). now apply Rdiv_lt_0_compat. }
  assert (PV : 0 < v) by (apply Rmult_lt_0_compat; [assumption|apply exp_pos]). split; [exact PV|].
  unfold v, at_pressure. cbn [EvIdentProps.v0]. unfold Rpower. rewrite ln_mult, ln_exp by (assumption || apply exp_pos).
  replace (k1 p * (ln (v0 p) + -1 / k1 p * ln (1 + k1 p * P / k0 p))) with (k1 p * ln (v0 p) + - ln (1 + k1 p * P / k0 p)) by (field; assumption).
  rewrite exp_plus, exp_Ropp, exp_ln by assumption. f_equal. field. repeat split; lra.
Qed.
Lemma murnaghan_shift p P V : physical p -> k1 p <> 0 -> k1 p <> 1 -> 0 < k0 p + k1 p * P -> 0 < V ->
  energy ev_murnaghan (at_pressure p P) V = energy ev_murnaghan p V + P * V.
Proof.
  intros PH K K1 C HV. destruct (compressed p P PH K C) as (PV & EV). destruct PH as (A & B).
  set (v := v0 (at_pressure p P)) in *.
  assert (W : forall u y, 0 < u -> 0 < y -> Rpower (u / y) (k1 p) = exp (k1 p * ln u) * exp (- (k1 p * ln y))).
  { intros u y U Y. unfold Rpower. rewrite ln_ratio, <- exp_plus by assumption. f_equal. ring. }
  unfold energy at 1, ev_murnaghan. fold v. change (k1 (at_pressure p P)) with (k1 p). change (k0 (at_pressure p P)) with (k0 p + k1 p * P).
  change (e0 (at_pressure p P)) with (energy ev_murnaghan p v + P * v).
  unfold energy, ev_murnaghan. rewrite !W by assumption. rewrite EV.
  assert (VV : exp (- (k1 p * ln v)) * (exp (k1 p * ln (v0 p)) * (k0 p / (k0 p + k1 p * P))) = 1).
  { rewrite <- EV, <- exp_plus. replace (- (k1 p * ln v) + k1 p * ln v) with 0 by ring. apply exp_0. }
  set (a := exp (k1 p * ln (v0 p))) in *. set (b := exp (- (k1 p * ln V))). set (c := exp (- (k1 p * ln v))) in *.
  assert (VC : c * a = (k0 p + k1 p * P) / k0 p).
  { apply Rmult_eq_reg_r with (k0 p / (k0 p + k1 p * P)); [|apply Rmult_integral_contrapositive_currified; [lra|apply Rinv_neq_0_compat; lra]].
    rewrite Rmult_assoc, VV. field. split; lra. }
  replace (a * c) with ((k0 p + k1 p * P) / k0 p) by (rewrite <- VC; ring). field. repeat split; lra.
Qed.
(** F + PV of a Murnaghan solid is again a Murnaghan curve; its volume V0 is the one
    at which the pressure is P, its modulus is the one at that pressure, and V0 is
    the only minimum of F + PV. *)
Theorem C104_murnaghan p P V :
  physical p -> defined "murnaghan" p -> 0 < k0 p + k1 p * P -> 0 < V ->
  let q := at_pressure p P in
  energy ev_murnaghan q V = energy ev_murnaghan p V + P * V /\
  0 < v0 q /\ murnaghan_textbook (k0 p) (k1 p) (v0 p) (v0 q) = P /\
  (V <> v0 q -> energy ev_murnaghan p (v0 q) + P * v0 q < energy ev_murnaghan p V + P * V).
Proof.
  intros PH (D & _) C HV q. destruct (D eq_refl) as (D0 & D1). destruct (compressed p P PH D0 C) as (PV & EV). fold q in PV, EV.
  pose proof PH as (A & B). split; [|split; [|split]].
  - now apply murnaghan_shift.
  - exact PV.
  - unfold murnaghan_textbook, Rpower. rewrite ln_ratio by assumption.
    replace (k1 p * (ln (v0 p) - ln (v0 q))) with (k1 p * ln (v0 p) + - (k1 p * ln (v0 q))) by ring. rewrite exp_plus, exp_Ropp, EV.
    pose proof (exp_pos (k1 p * ln (v0 p))). field. repeat split; lra.
  - intros N. rewrite <- (murnaghan_shift p P V) by assumption. change (energy ev_murnaghan p (v0 q) + P * v0 q) with (e0 q).
    apply (EvEosProps.C19_global_minimum "murnaghan" ev_murnaghan (e0 q) (k0 q) (k1 q) (v0 q) V); auto.
Qed.

(** The minimisation of the quasi-harmonic calculation, by equation of state. *)
Section Minimise.
Variable K : constants.
Variables (np_polyfit : fit_function) (roots : list R -> list (R * R)) (curve_fit : curve_fitter).
Notation eos := (QhaCommandModel.eos_parameters (ev_fit np_polyfit roots curve_fit)).
Variables (s : settings) (x : input).
(** The free energies at the volumes follow a Murnaghan equation of state, and the
    fit of F + PV goes through its points: the volume returned is the one at which
    that equation of state has the pressure, with its bulk modulus K0 + K' P there,
    in the unit of pressure, and its K'. *)
Theorem C104_minimise Fe p P pt c v k k' :
  minimization s = "eos" -> eos_function s = "murnaghan" -> physical p -> defined "murnaghan" p ->
  distinct (nvol x) (volume x) -> (4 <= nvol x)%nat -> (forall j, (j < nvol x)%nat -> 0 < volume x j /\ Fe j = energy ev_murnaghan p (volume x j)) ->
  pressure_to_energy K P (eunit s) (vunit s) (punit s) = Some pt -> 0 < k0 p + k1 p * pt ->
  goes_through curve_fit "murnaghan" (nvol x) (volume x) (fun j => Fe j + pt * volume x j) ->
  minimize_volume K np_polyfit roots eos s x (volume x) Fe P c = Ok (v, k, k') ->
  0 < v /\ murnaghan_textbook (k0 p) (k1 p) (v0 p) v = pt /\ energy_to_pressure K (k0 p + k1 p * pt) (eunit s) (vunit s) (punit s) = Some k /\ k' = k1 p /\
  forall V, 0 < V -> V <> v -> energy ev_murnaghan p v + pt * v < energy ev_murnaghan p V + pt * V.
Proof.
  intros M EF PH DF D L H PT C G R. pose proof PH as (A & B).
  unfold minimize_volume, poly_on, eos_on in R. rewrite M in R. cbn [String.eqb] in R. 
  replace (String.eqb "eos" "poly") with false in R by reflexivity. replace (String.eqb "eos" "eos") with true in R by reflexivity.
  unfold find_eos_minimum, set_target_pressure in R. rewrite PT, EF in R. cbn [bind] in R. unfold QhaCommandModel.eos_parameters in R.
  destruct (ev_fit np_polyfit roots curve_fit "murnaghan" (nvol x) (volume x) (fun j => Fe j + pt * volume x j)) as [[fo er]|] eqn:EV; [|discriminate].
  set (q := at_pressure p pt).
  assert (FO : fo = (e0 q, k0 q, k1 q, v0 q)).
  { apply (C103_recovered np_polyfit roots curve_fit "murnaghan" ev_murnaghan (nvol x) (volume x) (fun j => Fe j + pt * volume x j) q fo er); auto.
    - split; [exact C|]. destruct DF as (DD & _). destruct (DD eq_refl). now apply compressed.
    - intros j Hj. destruct (H j Hj) as (PV & E). split; [exact PV|]. rewrite E. symmetry. destruct DF as (DD & _). destruct (DD eq_refl). now apply murnaghan_shift. }
  subst fo. cbn [bind fst] in R. unfold e2p in R. destruct (energy_to_pressure K (k0 q) (eunit s) (vunit s) (punit s)) as [kk|] eqn:EP; [|discriminate].
  cbn [bind] in R. injection R as <- <- <-.
  destruct (C104_murnaghan p pt 1 PH DF C Rlt_0_1) as (_ & Q1 & Q2 & _). fold q in Q1, Q2.
  split; [exact Q1|]. split; [exact Q2|]. split; [exact EP|]. split; [reflexivity|].
  intros V PV N. now apply (C104_murnaghan p pt V PH DF C PV).
Qed.
End Minimise.

(** ** The other forms *)
(** How many volumes exclude a curve through F + PV. *)
Definition many (tag : string) : nat := if String.eqb tag "vinet" then 8 else 5.
Lemma four_times f0 f1 f2 f3 f4 a l : (forall x, a < x -> is_derive f0 x (f1 x)) -> (forall x, a < x -> is_derive f1 x (f2 x)) ->
  (forall x, a < x -> is_derive f2 x (f3 x)) -> (forall x, a < x -> is_derive f3 x (f4 x)) -> (5 <= List.length l)%nat -> zeros_from a f0 l -> exists x, a < x /\ f4 x = 0.
Proof.
  intros D0 D1 D2 D3 L Z. destruct (rolle_zeros f0 f1 a l D0 Z) as (l1 & L1 & Z1). destruct (rolle_zeros f1 f2 a l1 D1 Z1) as (l2 & L2 & Z2).
  destruct (rolle_zeros f2 f3 a l2 D2 Z2) as (l3 & L3 & Z3). destruct (rolle_zeros f3 f4 a l3 D3 Z3) as (l4 & L4 & Z4).
  destruct l4 as [|x l4]; cbn in L4; [lia|]. destruct Z4 as (A & B & _). eauto.
Qed.
(** A lower bound. *)
Lemma below (l : list R) : exists a, forall x, In x l -> a < x.
Proof.
  induction l as [|y l (a & A)]; [exists 0; contradiction|]. exists (Rmin a (y - 1)). intros x [<-|I].
  - pose proof (Rmin_r a (y - 1)). lra.
  - apply A in I. pose proof (Rmin_l a (y - 1)). lra.
Qed.
Lemma pt_no_curve p q P l : 0 < v0 p -> 0 < v0 q -> P <> 0 -> NoDup l -> (5 <= List.length l)%nat -> (forall V, In V l -> 0 < V) ->
  ~ (forall V, In V l -> energy ev_pouriertarantola q V = energy ev_pouriertarantola p V + P * V).
Proof.
  intros Vp Vq HP ND L PV H.
  set (a3 r := - (k0 r * v0 r / 6 * (k1 r - 2))). set (a2 r := k0 r * v0 r / 2). set (z r := ln (v0 r)).
  set (f0 := fun x => a3 p * (x - z p) ^ 3 + a2 p * (x - z p) ^ 2 + e0 p + P * exp x - (a3 q * (x - z q) ^ 3 + a2 q * (x - z q) ^ 2 + e0 q)).
  destruct (below (map ln l)) as (a & A).
  destruct (enough_zeros a f0 (map ln l) 5) as (m & LM & ZM).
  - apply map_distinct; [|assumption]. intros x y X Y. apply ln_inv; auto.
  - intros x X. split; [auto|]. apply in_map_iff in X as (V & <- & I). specialize (H V I). specialize (PV V I). rewrite !pt_cubic in H by assumption.
    unfold f0, a3, a2, z. rewrite exp_ln by assumption. lra.
  - now rewrite map_length.
  - destruct (four_times f0 (fun x => 3 * a3 p * (x - z p) ^ 2 + 2 * a2 p * (x - z p) + P * exp x - (3 * a3 q * (x - z q) ^ 2 + 2 * a2 q * (x - z q)))
      (fun x => 6 * a3 p * (x - z p) + 2 * a2 p + P * exp x - (6 * a3 q * (x - z q) + 2 * a2 q)) (fun x => 6 * a3 p + P * exp x - 6 * a3 q) (fun x => P * exp x) a m) as (x & _ & X); auto.
    1-4: intros x _; unfold f0; auto_derive; [exact I|ring].
    apply Rmult_integral in X as [|X]; [contradiction|]. pose proof (exp_pos x). lra.
Qed.
Lemma power_derive r y : 0 < y -> is_derive (fun y => exp (- r * ln y)) y (- r * exp (- (r + 1) * ln y)).
Proof.
  intros Y. auto_derive; [exact Y|]. replace (- (r + 1) * ln y) with (- r * ln y + - ln y) by ring. rewrite exp_plus, exp_Ropp, (exp_ln y) by assumption. field. lra.
Qed.
Lemma bm_no_curve p q P l : 0 < v0 p -> 0 < v0 q -> P <> 0 -> NoDup l -> (5 <= List.length l)%nat -> (forall V, In V l -> 0 < V) ->
  ~ (forall V, In V l -> energy ev_birchmurnaghan q V = energy ev_birchmurnaghan p V + P * V).
Proof.
  intros Vp Vq HP ND L PV H.
  set (a3 r := 9 * k0 r * v0 r / 16 * (k1 r - 4) * bm_a r ^ 3). set (a2 r := 9 * k0 r * v0 r / 8 * bm_a r ^ 2). set (z r := / bm_a r).
  set (w r y := exp (- r * ln y)).
  set (f0 := fun x => (a3 p * (x - z p) ^ 3 + a2 p * (x - z p) ^ 2 + e0 p - (a3 q * (x - z q) ^ 3 + a2 q * (x - z q) ^ 2 + e0 q)) + P * w (3 / 2) x).
  set (y V := exp (- (2 / 3) * ln V)).
  destruct (enough_zeros 0 f0 (map y l) 5) as (m & LM & ZM).
  - apply map_distinct; [|assumption]. intros u v U V Q. apply exp_injective in Q. apply ln_inv; auto. lra.
  - intros x X. apply in_map_iff in X as (V & <- & I). split; [apply exp_pos|]. specialize (H V I). specialize (PV V I). rewrite !bm_cubic in H by assumption.
    unfold f0, a3, a2, z, w, y. rewrite ln_exp. replace (- (3 / 2) * (- (2 / 3) * ln V)) with (ln V) by field. rewrite exp_ln by assumption. lra.
  - now rewrite map_length.
  - assert (PD : forall r c y, 0 < y -> is_derive (fun y => c * w r y) y (c * (- r * w (r + 1) y))).
    { intros r c u U. apply (is_derive_scal (fun y => w r y) u c). now apply power_derive. }
    destruct (four_times f0 (fun x => (3 * a3 p * (x - z p) ^ 2 + 2 * a2 p * (x - z p) - (3 * a3 q * (x - z q) ^ 2 + 2 * a2 q * (x - z q))) + P * (- (3 / 2)) * w (5 / 2) x)
      (fun x => (6 * a3 p * (x - z p) + 2 * a2 p - (6 * a3 q * (x - z q) + 2 * a2 q)) + P * (- (3 / 2)) * (- (5 / 2)) * w (7 / 2) x)
      (fun x => (6 * a3 p - 6 * a3 q) + P * (- (3 / 2)) * (- (5 / 2)) * (- (7 / 2)) * w (9 / 2) x)
      (fun x => 0 + P * (- (3 / 2)) * (- (5 / 2)) * (- (7 / 2)) * (- (9 / 2)) * w (11 / 2) x) 0 m) as (x & _ & X); auto.
    1-4: intros x X; apply (is_derive_plus (V := R_NormedModule)); [auto_derive; [exact I|ring]|].
    + evar_last; [apply PD; exact X|]. replace (3 / 2 + 1) with (5 / 2) by field. ring.
    + evar_last; [apply PD; exact X|]. replace (5 / 2 + 1) with (7 / 2) by field. ring.
    + evar_last; [apply PD; exact X|]. replace (7 / 2 + 1) with (9 / 2) by field. ring.
    + evar_last; [apply PD; exact X|]. replace (9 / 2 + 1) with (11 / 2) by field. ring.
    + pose proof (exp_pos (- (11 / 2) * ln x)) as PE. fold (w (11 / 2) x) in PE. rewrite Rplus_0_l in X.
      apply Rmult_integral in X as [X|X]; [|lra]. apply HP. lra.
Qed.
Lemma quadratic_zeros a b c x y z : a <> 0 -> x < y -> y < z -> a * x ^ 2 + b * x + c = 0 -> a * y ^ 2 + b * y + c = 0 -> a * z ^ 2 + b * z + c = 0 -> False.
Proof.
  intros A XY YZ X Y Z. assert (E1 : (x - y) * (a * (x + y) + b) = 0) by lra. assert (E2 : (y - z) * (a * (y + z) + b) = 0) by lra.
  apply Rmult_integral in E1 as [|E1]; [lra|]. apply Rmult_integral in E2 as [|E2]; [lra|].
  assert (E3 : a * (x - z) = 0) by lra. apply Rmult_integral in E3 as [|]; lra.
Qed.
Lemma zeros_imp f g : (forall x, f x = 0 -> g x = 0) -> forall a l, zeros_from a f l -> zeros_from a g l.
Proof. intros FG a l. revert a. induction l; cbn; intuition. Qed.
Lemma vinet_no_curve p q P l : 0 < v0 p -> 0 < v0 q -> k1 p <> 1 -> k1 q <> 1 -> P <> 0 -> NoDup l -> (8 <= List.length l)%nat -> (forall V, In V l -> 0 < V) ->
  ~ (forall V, In V l -> energy ev_vinet q V = energy ev_vinet p V + P * V).
Proof.
  intros Vp Vq Kp Kq HP ND L PV H.
  assert (HW : forall r, 0 < vw r) by (intros; apply exp_pos).
  assert (HC : forall r, k1 r <> 1 -> vc r <> 0).
  { intros r Z. unfold vc, Rdiv. apply Rmult_integral_contrapositive_currified; [lra|]. apply Rinv_neq_0_compat. pose proof (HW r). lra. }
  pose proof (HC p Kp) as Cp. pose proof (HC q Kq) as Cq.
  set (root := fun V => exp (1 / 3 * ln V)).
  destruct (enough_zeros 0 (fun t => (vcurve p t - vcurve q t) + P * t ^ 3) (map root l) 8) as (l0 & L0 & Z0).
  { apply map_distinct; [|assumption]. intros x y X Y Q. apply exp_injective in Q. apply ln_inv; auto. lra. }
  { intros t T. apply in_map_iff in T as (V & <- & I). specialize (H V I). specialize (PV V I). split; [apply exp_pos|].
    rewrite !vinet_curve in H by assumption. unfold root.
    assert (Q : exp (1 / 3 * ln V) ^ 3 = V). { cbn [pow]. rewrite Rmult_1_r, <- !exp_plus. replace (1 / 3 * ln V + (1 / 3 * ln V + 1 / 3 * ln V)) with (ln V) by field. now apply exp_ln. }
    rewrite Q. lra. }
  { now rewrite map_length. }
  set (f1 := fun t => (vG p * (t - vw p) * exp (- vc p * (t - vw p)) - vG q * (t - vw q) * exp (- vc q * (t - vw q))) + 3 * P * t ^ 2).
  destruct (rolle_zeros (fun t => (vcurve p t - vcurve q t) + P * t ^ 3) f1 0 l0) as (l1 & L1 & Z1).
  { intros t _. apply (is_derive_plus (V := R_NormedModule)); [apply (is_derive_minus (V := R_NormedModule)); apply vcurve_derive|]. auto_derive; [exact I|ring]. }
  { exact Z0. }
  set (s := vc p - vc q). set (H1 := vG p * exp (vc p * vw p)). set (H2 := vG q * exp (vc q * vw q)).
  set (g1 := fun t => H1 * (t - vw p) - H2 * (t - vw q) * exp (s * t) + 3 * P * t ^ 2 * exp (vc p * t)).
  apply (zeros_imp f1 g1) in Z1.
  2: { intros t F. unfold g1, H1, H2, s. replace ((vc p - vc q) * t) with (vc p * t + - (vc q * t)) by ring. unfold f1 in F.
       replace (- vc p * (t - vw p)) with (- (vc p * t) + vc p * vw p) in F by ring. replace (- vc q * (t - vw q)) with (- (vc q * t) + vc q * vw q) in F by ring.
       rewrite !exp_plus in *. rewrite (exp_Ropp (vc p * t)) in F. pose proof (exp_pos (vc p * t)) as PE.
       apply Rmult_eq_reg_r with (/ exp (vc p * t)); [|apply Rinv_neq_0_compat; lra]. rewrite Rmult_0_l. rewrite <- F. field. lra. }
  set (g1' := fun t => H1 - H2 * (1 + s * (t - vw q)) * exp (s * t) + 3 * P * (2 * t + vc p * t ^ 2) * exp (vc p * t)).
  set (g1'' := fun t => 3 * P * (2 + 4 * vc p * t + vc p ^ 2 * t ^ 2) * exp (vc p * t) - H2 * (2 * s + s ^ 2 * (t - vw q)) * exp (s * t)).
  destruct (rolle_zeros g1 g1' 0 l1) as (l2 & L2 & Z2).
  { intros t _. unfold g1, g1'. auto_derive; [exact I|]. unfold Rminus. ring. }
  { exact Z1. }
  destruct (rolle_zeros g1' g1'' 0 l2) as (l3 & L3 & Z3).
  { intros t _. unfold g1', g1''. auto_derive; [exact I|]. unfold Rminus. ring. }
  { exact Z2. }
  set (g2 := fun t => 3 * P * (2 + 4 * vc p * t + vc p ^ 2 * t ^ 2) * exp (vc q * t) - H2 * (2 * s + s ^ 2 * (t - vw q))).
  apply (zeros_imp g1'' g2) in Z3.
  2: { intros t F. unfold g2. unfold g1'' in F. replace (vc p * t) with (s * t + vc q * t) in F by (unfold s; ring). rewrite exp_plus in F.
       pose proof (exp_pos (s * t)) as PE. apply Rmult_eq_reg_r with (exp (s * t)); [|lra]. rewrite Rmult_0_l. rewrite <- F. unfold s. ring. }
  set (g2' := fun t => 3 * P * (vc q * (2 + 4 * vc p * t + vc p ^ 2 * t ^ 2) + (4 * vc p + 2 * vc p ^ 2 * t)) * exp (vc q * t) - H2 * s ^ 2).
  set (g2'' := fun t => 3 * P * (vc q ^ 2 * (2 + 4 * vc p * t + vc p ^ 2 * t ^ 2) + 2 * vc q * (4 * vc p + 2 * vc p ^ 2 * t) + 2 * vc p ^ 2) * exp (vc q * t)).
  destruct (rolle_zeros g2 g2' 0 l3) as (l4 & L4 & Z4).
  { intros t _. unfold g2, g2'. auto_derive; [exact I|]. unfold Rminus. ring. }
  { exact Z3. }
  destruct (rolle_zeros g2' g2'' 0 l4) as (l5 & L5 & Z5).
  { intros t _. unfold g2', g2''. auto_derive; [exact I|]. unfold Rminus. ring. }
  { exact Z4. }
  destruct l5 as [|x [|y [|z l5]]]; cbn in L5; try lia. cbn [zeros_from] in Z5. destruct Z5 as (_ & FX & XY & FY & YZ & FZ & _).
  assert (QQ : forall t, g2'' t = 0 -> vc q ^ 2 * vc p ^ 2 * t ^ 2 + (4 * vc q ^ 2 * vc p + 4 * vc q * vc p ^ 2) * t + (2 * vc q ^ 2 + 8 * vc q * vc p + 2 * vc p ^ 2) = 0).
  { intros t F. unfold g2'' in F. apply Rmult_integral in F as [F|F]; [|pose proof (exp_pos (vc q * t)); lra]. apply Rmult_integral in F as [F|F]; [lra|]. rewrite <- F. ring. }
  apply (quadratic_zeros (vc q ^ 2 * vc p ^ 2) (4 * vc q ^ 2 * vc p + 4 * vc q * vc p ^ 2) (2 * vc q ^ 2 + 8 * vc q * vc p + 2 * vc p ^ 2) x y z); auto.
  apply Rmult_integral_contrapositive_currified; now apply pow_nonzero.
Qed.
(** At any pressure but zero, F + PV of a solid which follows one of the other
    equations of state is no curve of that form: no fit goes through the points. *)
Theorem C104_no_curve_refuted tag form p P Vs :
  set_eos_type tag = Some form -> tag <> "murnaghan" -> physical p -> defined tag p -> P <> 0 ->
  NoDup Vs -> (many tag <= List.length Vs)%nat -> (forall V, In V Vs -> 0 < V) ->
  ~ exists q, 0 < v0 q /\ defined tag q /\ forall V, In V Vs -> energy form q V = energy form p V + P * V.
Proof.
  unfold set_eos_type, many. intros T NM (Kp & Vp) Dp HP ND L PV (q & Vq & Dq & H).
  destruct (String.eqb_spec tag "murnaghan") as [|_]; [contradiction|].
  destruct (String.eqb_spec tag "birchmurnaghan") as [->|]; [injection T as <-; now apply (bm_no_curve p q P Vs)|].
  destruct (String.eqb_spec tag "vinet") as [->|].
  { injection T as <-. destruct Dp as (_ & Dp). destruct Dq as (_ & Dq). now apply (vinet_no_curve p q P Vs); auto. }
  destruct (String.eqb_spec tag "pouriertarantola") as [->|]; [injection T as <-; now apply (pt_no_curve p q P Vs)|]. discriminate.
Qed.

(** ** Instances *)
(** Periclase under 10 GPa-like units: K = 160 + 4.1 * 10, and a smaller volume. *)
Example C104_instance : let q := at_pressure periclase 10 in
  physical periclase /\ defined "murnaghan" periclase /\ k0 q = 201 /\ v0 q < 75 /\ murnaghan_textbook 160 (41 / 10) 75 (v0 q) = 10.
Proof.
  intros q. assert (PH : physical periclase) by (split; cbn; lra). assert (DF : defined "murnaghan" periclase) by (split; intros _; cbn; lra).
  split; [exact PH|]. split; [exact DF|]. split; [cbn; lra|].
  destruct (C104_murnaghan periclase 10 1 PH DF) as (_ & A & B & _); [cbn; lra|lra|]. fold q in A, B. cbn [periclase k0 k1 v0] in B. split; [|exact B].
  destruct (Rlt_or_le (v0 q) 75) as [|G]; [assumption|]. exfalso. unfold murnaghan_textbook, Rpower in B. rewrite ln_ratio in B by lra.
  assert (ln 75 <= ln (v0 q)) by (destruct G as [G| <-]; [left; apply ln_increasing; lra|lra]).
  assert (exp (41 / 10 * (ln 75 - ln (v0 q))) <= exp 0).
  { destruct (Rle_lt_or_eq_dec (41 / 10 * (ln 75 - ln (v0 q))) 0) as [Q|Q]; [lra|left; now apply exp_increasing|rewrite Q; lra]. }
  rewrite exp_0 in *. lra.
Qed.

Print Assumptions C104_murnaghan.
Print Assumptions C104_minimise.
Print Assumptions C104_no_curve_refuted.
