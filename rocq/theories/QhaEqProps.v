(** C69 (equilibrium volume and bulk modulus of a quasi-harmonic run), C71 and
    C72 (harmonic run). *)
From Coq Require Import Reals String List Bool Arith Lia Lra.
From Coquelicot Require Import Coquelicot.
From Verif Require Import Py ParModel StatMechModel StatMechSpec StatMechProofs StatMechProps ThermoModel ThermoProps
  UnitsModel UnitsSpec UnitsProofs UnitsProps PolyModel PolyProps PolyfitProofs EvEosModel EvEosProps
  GridModel GridProps QhaRunModel QhaRunProps QhaRunProps2.
Import ListNotations.
Open Scope string_scope.
Open Scope list_scope.
Open Scope R_scope.

(** Polynomials with the same values have the same derivatives. *)
Lemma deriv_ext c e : (forall v, polyval v c = polyval v e) -> forall v, polyval v (deriv c) = polyval v (deriv e).
Proof.
  intros E v. rewrite <- (is_derive_unique _ _ _ (poly_derive c v)), <- (is_derive_unique _ _ _ (poly_derive e v)).
  apply Derive_ext. exact E.
Qed.
Lemma slope_length f p : (List.length (add_const (deriv f) p) <= Nat.max 1 (pred (List.length f)))%nat.
Proof.
  assert (A : forall n c, List.length (deriv_aux n c) = List.length c)
    by (intros n c; revert n; induction c; intros; simpl; auto).
  destruct f as [|a [|b r]]; simpl; auto. rewrite A. lia.
Qed.
Lemma grid_nth v k : (k < 5)%nat -> grid_at (fst (fine_grid 5 (5/100))) v k = v + v * ((INR k - 2) * (5/10000)).
Proof.
  intros Hk. unfold grid_at, volume_grid. set (h := fun e => v + v * e).
  rewrite nth_indep with (d' := h 0) by (rewrite map_length, fine_grid_length; auto).
  rewrite map_nth, fine_grid_nth by auto. unfold h. simpl (INR (5 / 2)). field.
Qed.
Lemma grid_distinct v : v <> 0 -> distinct 5 (grid_at (fst (fine_grid 5 (5/100))) v).
Proof.
  intros NZ a b Ha Hb E. rewrite !grid_nth in E by auto. apply INR_eq.
  assert (Q : v * ((INR a - INR b) * (5 / 10000)) = 0) by lra.
  apply Rmult_integral in Q as [Q|Q]; [contradiction|]. lra.
Qed.

Local Arguments fine_grid : simpl never.
Section Run.
Variable K : constants.
Variables hplanck kboltzmann : R.
Hypothesis PK : positive_constants K.
Variable fit : fit_function.
Variable roots : list R -> list (R * R).
Variable eos_fit : string -> nat -> (nat -> R) -> (nat -> R) -> outcome (R * R * R * R).
Variables kieffer_Cv kieffer_S : nat -> R -> R.
Variable s : settings.
Variable x : input.
Notation run := (run K hplanck kboltzmann fit roots eos_fit kieffer_Cv kieffer_S s x).
Notation td := (run_thermodynamics_interpolation K hplanck kboltzmann fit roots eos_fit kieffer_Cv kieffer_S s x).
Notation fr := (run_frequency_interpolation K hplanck kboltzmann fit roots eos_fit s x).

(** energy_to_pressure as a scaling *)
Lemma e2p_scale c :
  conversion (fun e => energy_to_pressure K e (eunit s) (vunit s) (punit s)) = Ok c ->
  exists de dv dp, meaning (ep_energy_units K) (lower (eunit s)) = Some de /\
    meaning (ep_volume_units K) (lower (vunit s)) = Some dv /\ meaning pressure_units (lower (punit s)) = Some dp /\
    forall e, c e = e * fst de / fst dv / fst dp.
Proof.
  unfold conversion. rewrite e2p_value.
  destruct (meaning (ep_energy_units K) _) as [de|] eqn:E1; [|discriminate].
  destruct (meaning (ep_volume_units K) _) as [dv|] eqn:E2; [|discriminate].
  destruct (meaning pressure_units _) as [dp|] eqn:E3; [|discriminate].
  intros H. injection H as <-. exists de, dv, dp. repeat split; auto.
  intros e. now rewrite e2p_value, E1, E2, E3.
Qed.

(** Polynomial minimisation, thermodynamic scheme: for every temperature one
    polynomial is the reported free energy; at each reported volume the pressure
    -dF/dV is the requested one, F + PV has a strict local minimum there, and the
    reported bulk modulus is V d2F/dV2, all in SI units. *)
Theorem C69_polynomial_equilibrium tl pl r de dv dp :
  least_squares_solver fit -> distinct (nvol x) (volume x) -> (edeg s < nvol x)%nat -> (edeg s < 5)%nat ->
  (forall c, (List.length c <= Nat.max 1 (edeg s))%nat -> roots_exact roots c) ->
  qha_scheme s = "td" -> minimization s = "poly" -> run tl pl = Ok r ->
  meaning (ep_energy_units K) (lower (eunit s)) = Some de ->
  meaning (ep_volume_units K) (lower (vunit s)) = Some dv ->
  meaning pressure_units (lower (punit s)) = Some dp ->
  forall i, (i < List.length tl)%nat -> exists f : list R, List.length f = S (edeg s) /\
  forall j, (j < List.length pl)%nat ->
  let V := VT r i j in
  F r i j = polyval V f /\
  fst dp * nth j pl 0 = - (fst de * polyval V (deriv f) / fst dv) /\
  (exists p, fst de * p / fst dv = fst dp * nth j pl 0 /\ strict_local_minimum (fun w => polyval w f + p * w) V) /\
  (V <> 0 -> fst dp * KT r i j = (fst dv * V) * (fst de * polyval V (deriv (deriv f)) / (fst dv * fst dv))) /\
  (0 < V -> 0 < KT r i j).
Proof.
  intros SOL D DE D5 RO SCH MI E Me Mv Mp i Hi.
  destruct (run_inv _ _ _ _ _ _ _ _ _ _ _ _ _ E) as (ct & ph & r0 & _ & _ & _ & Etd & _ & Ef).
  destruct (finalize_keeps _ _ _ _ _ _ _ _ Ef) as (_ & _ & _ & _ & EF & _ & _ & EV & EK & _).
  specialize (Etd SCH). unfold run_thermodynamics_interpolation in Etd.
  apply bind_ok in Etd as (ce & Ece & Etd). apply bind_ok in Etd as (vk & Evk & Etd).
  assert (PO : poly_on s = true) by (unfold poly_on; rewrite MI; reflexivity). rewrite PO in Etd.
  apply bind_ok in Etd as (kk & Ekk & Etd). injection Etd as <-. rewrite EF, EV, EK.
  cbn [scheme_results F VT KT].
  match goal with |- context [polyval _ (fit _ _ ?Y _)] => set (Yf := Y) end.
  exists (fit (nvol x) (volume x) Yf (edeg s)). set (f := fit (nvol x) (volume x) Yf (edeg s)) in *.
  split; [apply SOL; auto|]. intros j Hj. cbv zeta.
  pose proof (table_ok _ _ _ _ _ Evk i j Hi Hj) as MV. cbv beta in MV. unfold minimize_volume in MV. rewrite PO in MV.
  apply bind_ok in MV as (p0 & Ep & MV). cbv zeta beta iota in MV. fold Yf f in MV.
  match type of MV with match volume_at _ ?g _ with _ => _ end = _ => change g with f in MV end.
  destruct (volume_at roots f p0) as [v|] eqn:EVA; [|discriminate]. injection MV as MV.
  pose proof (table_ok _ _ _ _ _ Ekk i j Hi Hj) as NB. cbv beta in NB.
  match type of NB with context [polyval _ (fit (nvol x) (volume x) ?Y (edeg s))] => change Y with Yf in NB end. fold f in NB. rewrite <- MV in *. cbn [fst snd] in *.
  split; [reflexivity|].
  unfold set_target_pressure in Ep. rewrite p2e_value, Me, Mv, Mp in Ep. injection Ep as <-.
  pose proof (ep_energy_pos K PK _ _ Me) as Pe. pose proof (ep_volume_pos K PK _ _ Mv) as Pv. pose proof (pressure_pos _ _ Mp) as Pp.
  set (p0 := nth j pl 0 * fst dp * fst dv / fst de) in *.
  assert (LF : List.length f = S (edeg s)) by (apply SOL; auto).
  pose proof (slope_length f p0) as LC. rewrite LF in LC. simpl Nat.pred in LC.
  assert (IN : In v (find_polynomial_minimum roots f (Some p0))).
  { unfold volume_at in EVA. destruct (find_polynomial_minimum roots f (Some p0)); [discriminate|]. injection EVA as ->. now left. }
  destruct (proj1 (C24_returns_exactly_the_minima roots f p0 v (RO _ LC)) IN) as [SL CU].
  unfold slope in SL. unfold curvature in CU.
  split; [replace (polyval v (deriv f)) with (- p0) by lra; unfold p0; field; lra|].
  split.
  { exists p0. split; [unfold p0; field; lra|]. apply (C24_strict_local_minimum roots f p0 v (RO _ LC) IN). }
  assert (KV : v <> 0 -> fst (kk i j) = v * polyval v (deriv (deriv f)) * fst de / fst dv / fst dp).
  { intros NZ. unfold numerical_bulk_modulus in NB. apply bind_ok in NB as (cv & Ecv & NB). assert (INJ : forall a b : R * R, Ok a = Ok b -> b = a) by congruence.
    pose proof (INJ _ _ NB) as NB1.
    rewrite NB1. cbn [fst].
    destruct (e2p_scale cv Ecv) as (de' & dv' & dp' & M1 & M2 & M3 & SC).
    rewrite Me in M1. injection M1 as <-. rewrite Mv in M2. injection M2 as <-. rewrite Mp in M3. injection M3 as <-.
    destruct (C44_grid 5 (5/100)) as (GL & GC & _). rewrite GL, GC, SC.
    assert (G2 : grid_at (fst (fine_grid 5 (5/100))) v (5 / 2) = v) by (rewrite grid_nth by (simpl; lia); simpl; ring).
    rewrite G2.
    assert (X : forall w, polyval w (fit 5%nat (grid_at (fst (fine_grid 5 (5 / 100))) v)
        (fun k => polyval (grid_at (fst (fine_grid 5 (5 / 100))) v k) f) (edeg s)) = polyval w f).
    { intros w. apply fit_exact; auto; [apply grid_distinct; exact NZ|].
      lia. }
    rewrite (deriv_ext _ _ (deriv_ext _ _ X)). reflexivity. }
  split.
  - intros NZ. rewrite KV by exact NZ. field. lra.
  - intros PV. rewrite KV by lra. unfold Rdiv.
    repeat apply Rmult_lt_0_compat; try apply Rinv_0_lt_compat; assumption.
Qed.

(** When no volume qualifies the run stops with IndexError. *)
Theorem C69_no_minimum_raises V Fe p f :
  minimization s = "poly" ->
  (forall c, (List.length c <= Nat.max 1 (pred (List.length f)))%nat -> roots_exact roots c) ->
  forall p0, pressure_to_energy K p (eunit s) (vunit s) (punit s) = Some p0 ->
  (minimize_volume K fit roots eos_fit s x V Fe p (Some f) = Raises "IndexError" <->
   ~ exists v, polyval v (deriv f) + p0 = 0 /\ 0 < polyval v (deriv (deriv f))).
Proof.
  intros MI RO p0 EP. unfold minimize_volume.
  assert (PO : poly_on s = true) by (unfold poly_on; rewrite MI; reflexivity). rewrite PO.
  unfold set_target_pressure. rewrite EP. cbn [bind].
  pose proof (C24_raises_iff_no_minimum roots f p0 (RO _ (slope_length f p0))) as A. unfold slope, curvature in A.
  destruct (volume_at roots f p0) as [v|] eqn:Ev; split; intros Q; try discriminate; auto.
  - exfalso. apply A in Q. discriminate.
  - apply A. reflexivity.
Qed.

(** EoS minimisation, both schemes: whatever parameters the fit returns, the
    reported volume is where the fitted free-energy curve (EoS minus PV) has the
    requested pressure, and the reported KT is its bulk modulus there. *)
Definition fitted_equilibrium (p V kt : R) (de dv dp : R * R) : Prop :=
  exists e0 k0 k1 form,
    set_eos_type (eos_function s) = Some form /\ kt * fst dp = k0 * fst de / fst dv /\
    (0 < V -> k0 <> 0 -> k1 <> 0 -> k1 <> 1 ->
     exists p0 F1, p0 * fst de / fst dv = fst dp * p /\
       locally V (fun v => is_derive (fun w => form w e0 k0 k1 V - p0 * w) v (F1 v)) /\
       - F1 V = p0 /\ exists F2, is_derive F1 V F2 /\ V * F2 = k0).
Lemma eos_minimum V Fe p v k k1 pars de dv dp :
  minimization s = "eos" -> set_eos_type (eos_function s) <> None ->
  meaning (ep_energy_units K) (lower (eunit s)) = Some de ->
  meaning (ep_volume_units K) (lower (vunit s)) = Some dv ->
  meaning pressure_units (lower (punit s)) = Some dp ->
  minimize_volume K fit roots eos_fit s x V Fe p pars = Ok (v, k, k1) -> fitted_equilibrium p v k de dv dp.
Proof.
  intros MI TG Me Mv Mp E. unfold minimize_volume in E.
  assert (PO : poly_on s = false) by (unfold poly_on; rewrite MI; reflexivity).
  assert (EO : eos_on s = true) by (unfold eos_on; rewrite MI; reflexivity). rewrite PO, EO in E.
  apply bind_ok in E as ((((e0 & k0) & k1') & v0) & E1 & E). apply bind_ok in E as (kp & E2 & E).
  injection E as -> -> ->. unfold find_eos_minimum in E1. apply bind_ok in E1 as (p0 & Ep & _).
  unfold set_target_pressure in Ep. rewrite p2e_value, Me, Mv, Mp in Ep. injection Ep as <-.
  unfold e2p in E2. rewrite e2p_value, Me, Mv, Mp in E2. injection E2 as <-.
  pose proof (ep_energy_pos K PK _ _ Me) as Pe. pose proof (ep_volume_pos K PK _ _ Mv) as Pv. pose proof (pressure_pos _ _ Mp) as Pp.
  destruct (set_eos_type (eos_function s)) as [form|] eqn:TF; [|contradiction].
  exists e0, k0, k1, form. split; [exact TF|]. split; [field; lra|]. intros HV H0 H1 H2.
  destruct (C19_minimum (eos_function s) form e0 k0 k1 v HV H0 H1 H2 TF) as (_ & E1' & LO & Z & D2).
  set (p0 := p * fst dp * fst dv / fst de).
  exists p0, (fun w => E1' w - p0). split; [unfold p0; field; lra|]. split; [|split].
  - revert LO. apply filter_imp. intros w Hw.
    apply (is_derive_minus (fun w => form w e0 k0 k1 v) (fun w => p0 * w)); [exact Hw|].
    auto_derive; [auto|ring].
  - rewrite Z. unfold Rminus; rewrite Rplus_0_l; apply Ropp_involutive.
  - exists (k0 / v). split; [|field; lra].
    replace (k0 / v) with (minus (k0 / v) 0) by (unfold minus, plus, opp; simpl; ring).
    apply (is_derive_minus E1' (fun _ => p0)); [exact D2|apply (is_derive_const (V := R_NormedModule))].
Qed.
Theorem C69_eos_equilibrium tl pl r de dv dp :
  minimization s = "eos" -> set_eos_type (eos_function s) <> None ->
  qha_scheme s = "td" \/ qha_scheme s = "freq" -> run tl pl = Ok r ->
  meaning (ep_energy_units K) (lower (eunit s)) = Some de ->
  meaning (ep_volume_units K) (lower (vunit s)) = Some dv ->
  meaning pressure_units (lower (punit s)) = Some dp ->
  forall i j, (i < List.length tl)%nat -> (j < List.length pl)%nat ->
  fitted_equilibrium (nth j pl 0) (VT r i j) (KT r i j) de dv dp.
Proof.
  intros MI TG SC E Me Mv Mp i j Hi Hj.
  destruct (run_inv _ _ _ _ _ _ _ _ _ _ _ _ _ E) as (ct & ph & r0 & _ & _ & _ & Etd & Efr & Ef).
  destruct (finalize_keeps _ _ _ _ _ _ _ _ Ef) as (_ & _ & _ & _ & _ & _ & _ & -> & -> & _).
  assert (PO : poly_on s = false) by (unfold poly_on; rewrite MI; reflexivity).
  destruct SC as [SC|SC].
  - specialize (Etd SC). unfold run_thermodynamics_interpolation in Etd.
    apply bind_ok in Etd as (ce & Ece & Etd). apply bind_ok in Etd as (vk & Evk & Etd). rewrite PO in Etd.
    cbn [bind] in Etd. injection Etd as <-. cbn [scheme_results VT KT fst snd].
    pose proof (table_ok _ _ _ _ _ Evk i j Hi Hj) as MV. cbv beta in MV.
    destruct (vk i j) as [[v k] k1] eqn:EK. eapply eos_minimum; eauto.
  - specialize (Efr SC). unfold run_frequency_interpolation in Efr.
    apply bind_ok in Efr as (ce & Ece & Efr). apply bind_ok in Efr as (vk & Evk & Efr). rewrite PO in Efr.
    cbn [bind] in Efr. injection Efr as <-. cbn [scheme_results VT KT fst snd].
    pose proof (table_ok _ _ _ _ _ Evk i j Hi Hj) as MV. cbv beta in MV.
    destruct (vk i j) as [[v k] k1] eqn:EK. eapply eos_minimum; eauto.
Qed.
End Run.

(** ** Harmonic run *)
Section Harmonic.
Variable K : constants.
Variables hplanck kboltzmann : R.
Hypothesis PK : positive_constants K.
Hypotheses (Hh : 0 < hplanck) (Hk : 0 < kboltzmann).
Notation P := (P K hplanck kboltzmann).
Notation ha := (ha_run K hplanck kboltzmann).

Lemma ha_inv s x tl r : ha s x tl = Ok r ->
  exists d ct ph ce, meaning temperature_units (lower (tunit s)) = Some d /\ (forall t, ct t = si d t) /\
    phonons_Hz K s x = Ok ph /\ to_eunit K s = Ok ce /\
    let nt := List.length tl in let T i := ct (nth i tl 0) in
    (forall j, ha_Uzp r j = ce (zero_point_energy P 1 (fun _ => 0) ph (weight x) 0%nat j)) /\
    (forall i j, ha_Uth r i j = ce (thermal_energy P nt T ph (weight x) i j)) /\
    (forall i j, ha_S r i j = ce (entropy P nt T ph (weight x) i j)) /\
    (forall i j, ha_Cv r i j = ce (isochoric_heat_capacity P nt T ph (weight x) i j)) /\
    (forall i j, ha_Fvib r i j = ce (vibrational_free_energy P nt T ph (weight x) i j)) /\
    (forall i j, (i < nt)%nat -> (j < nvol x)%nat -> ha_Utot r i j = static_energy x j + ha_Uzp r j + ha_Uth r i j) /\
    (forall i j, (i < nt)%nat -> (j < nvol x)%nat -> ha_F r i j = static_energy x j + ha_Fvib r i j).
Proof.
  unfold ha_run. intros E. apply bind_ok in E as (ct & Ect & E). apply bind_ok in E as (ph & Eph & E).
  apply bind_ok in E as (ce & Ece & E). injection E as <-. destruct (kelvin s ct Ect) as (d & M & KE).
  exists d, ct, ph, ce. cbn [ha_Uzp ha_Uth ha_S ha_Cv ha_Fvib ha_Utot ha_F].
  split; [exact M|]. split; [exact KE|]. split; [exact Eph|]. split; [exact Ece|]. cbv zeta.
  do 5 (split; [reflexivity|]). split; intros i j Hi Hj.
  - rewrite internal_energy_value by auto. ring.
  - rewrite free_energy_value by auto. ring.
Qed.

(** C71: the identities between the columns of a harmonic table, in the user's units. *)
Theorem C71_table s x tl r d :
  nv (frequencies x) = nvol x -> ha s x tl = Ok r ->
  meaning temperature_units (lower (tunit s)) = Some d ->
  forall i j, (i < List.length tl)%nat -> (j < nvol x)%nat -> 0 <= si d (nth i tl 0) ->
  let T := si d (nth i tl 0) in
  ha_Utot r i j = static_energy x j + ha_Uzp r j + ha_Uth r i j /\
  ha_F r i j = static_energy x j + ha_Fvib r i j /\
  ha_Fvib r i j = ha_Uzp r j + ha_Uth r i j - T * ha_S r i j / 1000 /\
  ha_F r i j = ha_Utot r i j - T * ha_S r i j / 1000.
Proof.
  intros NV E M i j Hi Hj HT. destruct (ha_inv _ _ _ _ E) as (d' & ct & ph & ce & M' & KE & Eph & Ece & A & B & C & _ & D & U & FF).
  rewrite M in M'. injection M' as <-. cbv zeta. rewrite (U i j Hi Hj), (FF i j Hi Hj), A, B, C, D.
  unfold to_eunit in Ece. destruct (energy_scale K PK _ _ _ Ece) as (du & dv & _ & _ & Pu & Pv & SC).
  rewrite (Fvib_at K hplanck kboltzmann PK Hh Hk) by
    (first [assumption|rewrite (proj2 (proj2 (phonons_shape K s x ph Eph))); lia|rewrite KE; assumption]).
  rewrite !SC, KE. repeat split; field; lra.
Qed.

(** Energy, entropy and heat capacity of one oscillator of frequency w (Hz) at T,
    in J and J/K; modes without a positive frequency do not count. *)
Definition counted (g : R -> R) (w : R) : R := if Rle_dec w 0 then 0 else g w.
Definition oscillator_zero (w : R) : R := hplanck * w / 2.
Definition oscillator_energy (T w : R) : R := hplanck * w / (exp (hplanck * w / (kboltzmann * T)) - 1).
Definition oscillator_entropy (T w : R) : R :=
  oscillator_energy T w / T - kboltzmann * ln (1 - exp (- (hplanck * w / (kboltzmann * T)))).
Definition oscillator_capacity (T w : R) : R :=
  let y := hplanck * w / (kboltzmann * T) in kboltzmann * y ^ 2 * exp y / (exp y - 1) ^ 2.
(** Sum over the modes of the input, weights normalised by their declared total. *)
Definition mean_over_modes (s : settings) (x : input) (df : R * R) (j : nat) (g : R -> R) : R :=
  Rsum (nb (frequencies x)) (fun q => weights x q / total_q_points x *
    Rsum (nf (frequencies x)) (fun b => counted g (si df (freq (frequencies x) q b j)))).
Lemma Rsum_scale n k f : k * Rsum n f = Rsum n (fun i => k * f i).
Proof. induction n; simpl; [ring|]. rewrite Rmult_plus_distr_l, IHn. reflexivity. Qed.
Lemma expm1_pos y : 0 < y -> 0 < exp y - 1.
Proof. intros H. pose proof (exp_increasing 0 y H). rewrite exp_0 in H0. lra. Qed.

(** C71: the columns are the sums over the oscillators of the input, in the user's units. *)
Theorem C71_values s x tl r d de df :
  nv (frequencies x) = nvol x -> ha s x tl = Ok r ->
  meaning temperature_units (lower (tunit s)) = Some d ->
  meaning (energy_units K) (lower (eunit s)) = Some de ->
  meaning (frequency_units K) (lower (funit s)) = Some df ->
  forall i j, (i < List.length tl)%nat -> (j < nvol x)%nat -> 0 < si d (nth i tl 0) ->
  let T := si d (nth i tl 0) in
  fst de * ha_Uzp r j = mean_over_modes s x df j oscillator_zero /\
  fst de * ha_Uth r i j = mean_over_modes s x df j (oscillator_energy T) /\
  fst de * ha_S r i j / 1000 = mean_over_modes s x df j (oscillator_entropy T) /\
  fst de * ha_Cv r i j / 1000 = mean_over_modes s x df j (oscillator_capacity T).
Proof.
  intros NV E M Me Mf i j Hi Hj HT T.
  destruct (ha_inv _ _ _ _ E) as (d' & ct & ph & ce & Md & KE & Eph & Ece & A1 & A2 & A3 & A4 & _).
  rewrite M in Md. injection Md as <-. rewrite A1, A2, A3, A4.
  assert (CE : forall e, fst de * ce e = 1000 / N_A K * e).
  { intros e. unfold to_eunit in Ece. destruct (energy_scale K PK _ _ _ Ece) as (du & dv & N1 & N2 & P1 & P2 & SC).
    rewrite Me in N2. injection N2 as <-. cbn in N1. injection N1 as <-. rewrite SC. cbn [fst] in *. field. split; [|lra].
    apply Rgt_not_eq. apply PK. }
  destruct (phonons_shape K s x ph Eph) as (Q1 & Q2 & Q3).
  assert (FQ : forall q b k, freq ph q b k = si df (freq (frequencies x) q b k)).
  { intros q b k. unfold phonons_Hz in Eph. apply bind_ok in Eph as (cf & Ecf & Eph). injection Eph as <-. cbn [freq].
    destruct (conversion_si _ _ _ _ _ (frequency_converts K PK) Ecf) as (du & dv & N1 & N2 & SI).
    rewrite Mf in N1. injection N1 as <-. cbn in N2. injection N2 as <-. specialize (SI (freq (frequencies x) q b k)).
    unfold si in SI at 1. cbn [fst snd] in SI. lra. }
  assert (PN : 0 < N_A K) by apply PK.
  assert (B : forall ho nt (Tf : nat -> R) i0 (g : R -> R) k, (i0 < nt)%nat ->
    (forall w, 0 < w -> k * (1000 / N_A K * ho (Tf i0) w) = g w) -> (forall w, w <= 0 -> ho (Tf i0) w = 0) ->
    k * (fst de * ce (band_loop ho nt Tf ph (weight x) i0 j)) = mean_over_modes s x df j g).
  { intros ho nt Tf i0 g k Hi0 G Z. rewrite CE, band_loop_sum by (assumption || lia). unfold band_sum, mean_over_modes.
    rewrite Q1, Q2, !Rsum_scale. apply Rsum_ext. intros q _. rewrite !Rsum_scale. apply Rsum_ext. intros b _.
    rewrite FQ. unfold counted, weight. destruct (Rle_dec _ 0) as [L|L].
    - rewrite (Z _ L). ring.
    - rewrite <- (G _ (Rnot_le_lt _ _ L)). ring. }
  assert (NZ : forall w (b : bool), 0 < w -> (Rle_b w 0 || (Req_b T 0 && b))%bool = false).
  { intros w b W. unfold Rle_b, Req_b. destruct (Rle_dec w 0); [lra|]. destruct (Req_EM_T T 0); [unfold T in *; lra|]. reflexivity. }
  assert (EP : forall w, 0 < w -> 0 < exp (hplanck * w / (kboltzmann * T)) - 1).
  { intros w W. apply expm1_pos. apply Rmult_lt_0_compat; [nra|]. apply Rinv_0_lt_compat. unfold T. nra. }
  assert (TT : ct (nth i tl 0) = T) by apply KE.
  unfold zero_point_energy, thermal_energy, entropy, isochoric_heat_capacity.
  assert (TN : T <> 0) by (unfold T; lra). assert (TP : 0 < T) by exact HT.
  split; [|split; [|split]].
  - rewrite <- (Rmult_1_l (fst de * _)). apply (B _ 1%nat (fun _ => 0) 0%nat oscillator_zero 1); [lia|..]; intros w W; unfold ho_zpe, Rle_b.
    + destruct (Rle_dec w 0); [lra|]. unfold oscillator_zero. cbn [StatMechModel.NA hpl QhaRunModel.P]. field. lra.
    + destruct (Rle_dec w 0); [reflexivity|lra].
  - rewrite <- (Rmult_1_l (fst de * _)). apply (B _ (List.length tl) (fun i => ct (nth i tl 0)) i (oscillator_energy T) 1); [lia|..]; intros w W; unfold ho_eth.
    + rewrite TT. pose proof (NZ w true W) as Y. rewrite andb_true_r in Y. rewrite Y. unfold oscillator_energy, expm1. cbn [StatMechModel.NA hpl KB QhaRunModel.P]. pose proof (EP w W). field. repeat split; lra.
    + unfold Rle_b. destruct (Rle_dec w 0); [reflexivity|lra].
  - unfold Rdiv at 1. rewrite Rmult_comm. apply (B _ (List.length tl) (fun i => ct (nth i tl 0)) i (oscillator_entropy T) (/ 1000)); [lia|..]; intros w W; unfold ho_S.
    + rewrite TT. pose proof (NZ w true W) as Y. rewrite andb_true_r in Y. rewrite Y. unfold oscillator_entropy, oscillator_energy, expm1. cbn [StatMechModel.NA hpl KB QhaRunModel.P]. pose proof (EP w W). field. repeat split; lra.
    + unfold Rle_b. destruct (Rle_dec w 0); [reflexivity|lra].
  - unfold Rdiv at 1. rewrite Rmult_comm. apply (B _ (List.length tl) (fun i => ct (nth i tl 0)) i (oscillator_capacity T) (/ 1000)); [lia|..]; intros w W; unfold ho_Cv.
    + rewrite TT. pose proof (NZ w true W) as Y. rewrite andb_true_r in Y. rewrite Y. unfold oscillator_capacity, expm1. cbn [StatMechModel.NA hpl KB QhaRunModel.P]. pose proof (EP w W).
      unfold Req_b. destruct (Req_EM_T _ 0) as [Z|Z].
      * exfalso. assert (0 < (hplanck * w / (kboltzmann * T) / (exp (hplanck * w / (kboltzmann * T)) - 1)) ^ 2); [|lra].
        apply pow_lt. apply Rmult_lt_0_compat; [|now apply Rinv_0_lt_compat]. apply Rmult_lt_0_compat; [nra|]. apply Rinv_0_lt_compat. nra.
      * clear Z. field. repeat split; lra.
    + unfold Rle_b. destruct (Rle_dec w 0); [reflexivity|lra].
Qed.

(** Two descriptions of one physical input. *)
Record same_input (s s' : settings) (x x' : input) (tl tl' : list R) : Prop := {
  si_nvol : nvol x = nvol x'; si_nb : nb (frequencies x) = nb (frequencies x');
  si_nf : nf (frequencies x) = nf (frequencies x'); si_nv : nv (frequencies x) = nv (frequencies x');
  si_weight : forall q, weights x q = weights x' q; si_total : total_q_points x = total_q_points x';
  si_freq : forall q b k df df', meaning (frequency_units K) (lower (funit s)) = Some df ->
    meaning (frequency_units K) (lower (funit s')) = Some df' ->
    si df (freq (frequencies x) q b k) = si df' (freq (frequencies x') q b k);
  si_energy : forall j de de', meaning (energy_units K) (lower (eunit s)) = Some de ->
    meaning (energy_units K) (lower (eunit s')) = Some de' -> si de (static_energy x j) = si de' (static_energy x' j);
  si_nt : List.length tl = List.length tl';
  si_T : forall i d d', (i < List.length tl)%nat -> meaning temperature_units (lower (tunit s)) = Some d ->
    meaning temperature_units (lower (tunit s')) = Some d' -> si d (nth i tl 0) = si d' (nth i tl' 0) }.

Lemma band_loop_ext ho nt T T' ph ph' w w' i n :
  (i < nt)%nat -> (n < nv ph)%nat -> nb ph = nb ph' -> nf ph = nf ph' -> nv ph = nv ph' ->
  T i = T' i -> (forall q, w q = w' q) -> (forall q b k, freq ph q b k = freq ph' q b k) ->
  band_loop ho nt T ph w i n = band_loop ho nt T' ph' w' i n.
Proof.
  intros Hi Hn B Fq V HT HW HF. rewrite !band_loop_sum by (congruence || lia). unfold band_sum. rewrite B, Fq.
  apply Rsum_ext. intros q _. apply Rsum_ext. intros b _. now rewrite HT, HW, HF.
Qed.

(** C72: the harmonic table does not depend on the units the input is expressed in. *)
Theorem C72_unit_invariance s s' x x' tl tl' r r' de de' :
  same_input s s' x x' tl tl' -> nv (frequencies x) = nvol x ->
  ha s x tl = Ok r -> ha s' x' tl' = Ok r' ->
  meaning (energy_units K) (lower (eunit s)) = Some de -> meaning (energy_units K) (lower (eunit s')) = Some de' ->
  forall i j, (i < List.length tl)%nat -> (j < nvol x)%nat ->
  fst de * ha_Uzp r j = fst de' * ha_Uzp r' j /\ fst de * ha_Uth r i j = fst de' * ha_Uth r' i j /\
  fst de * ha_Utot r i j = fst de' * ha_Utot r' i j /\ fst de * ha_S r i j = fst de' * ha_S r' i j /\
  fst de * ha_F r i j = fst de' * ha_F r' i j /\ fst de * ha_Fvib r i j = fst de' * ha_Fvib r' i j /\
  fst de * ha_Cv r i j = fst de' * ha_Cv r' i j.
Proof.
  intros [S1 S2 S3 S4 S5 S6 S7 S8 S9 S10] NV E E' Me Me' i j Hi Hj.
  destruct (ha_inv _ _ _ _ E) as (d & ct & ph & ce & Md & KE & Eph & Ece & A1 & A2 & A3 & A4 & A5 & A6 & A7).
  destruct (ha_inv _ _ _ _ E') as (d' & ct' & ph' & ce' & Md' & KE' & Eph' & Ece' & B1 & B2 & B3 & B4 & B5 & B6 & B7).
  rewrite A6, A7, B6, B7, A1, A2, A3, A4, A5, B1, B2, B3, B4, B5 by lia.
  assert (CE : forall e e', e = e' -> fst de * ce e = fst de' * ce' e').
  { intros e e' <-. unfold to_eunit in Ece, Ece'.
    destruct (energy_scale K PK _ _ _ Ece) as (du & dv & N1 & N2 & P1 & P2 & SC).
    destruct (energy_scale K PK _ _ _ Ece') as (du' & dv' & N1' & N2' & P1' & P2' & SC').
    rewrite Me in N2. injection N2 as <-. rewrite Me' in N2'. injection N2' as <-. rewrite N1 in N1'. injection N1' as <-.
    rewrite SC, SC'. field. lra. }
  assert (CU : fst de * static_energy x j = fst de' * static_energy x' j).
  { specialize (S8 j _ _ Me Me'). unfold si in S8. rewrite (energy_zero K _ _ Me), (energy_zero K _ _ Me') in S8. lra. }
  destruct (phonons_shape K s x ph Eph) as (Q1 & Q2 & Q3). destruct (phonons_shape K s' x' ph' Eph') as (Q1' & Q2' & Q3').
  assert (W : forall q, weight x q = weight x' q) by (intros; unfold weight; congruence).
  assert (FQ : forall q b k, freq ph q b k = freq ph' q b k).
  { intros q b k. unfold phonons_Hz in Eph, Eph'. apply bind_ok in Eph as (cf & Ecf & Eph). apply bind_ok in Eph' as (cf' & Ecf' & Eph').
    injection Eph as <-. injection Eph' as <-. cbn [freq].
    destruct (conversion_si _ _ _ _ _ (frequency_converts K PK) Ecf) as (du & dv & N1 & N2 & SI).
    destruct (conversion_si _ _ _ _ _ (frequency_converts K PK) Ecf') as (du' & dv' & N1' & N2' & SI').
    specialize (SI (freq (frequencies x) q b k)). specialize (SI' (freq (frequencies x') q b k)).
    rewrite N2 in N2'. injection N2' as <-. rewrite (S7 q b k _ _ N1 N1') in SI. rewrite <- SI' in SI.
    unfold si in SI. pose proof (frequency_pos K PK _ _ N2) as PV.
    apply Rplus_eq_reg_r in SI. apply Rmult_eq_reg_l in SI; [exact SI|lra]. }
  assert (TT : ct (nth i tl 0) = ct' (nth i tl' 0)) by (intros; rewrite KE, KE'; auto).
  assert (BL : forall ho nt nt' T T' i, (i < nt)%nat -> nt = nt' -> T i = T' i ->
     band_loop ho nt T ph (weight x) i j = band_loop ho nt' T' ph' (weight x') i j).
  { intros ho nt ? T T' i' Hi' <- HT. apply band_loop_ext; auto; congruence || lia. }
  unfold zero_point_energy, thermal_energy, entropy, isochoric_heat_capacity, vibrational_free_energy.
  assert (Z1 := CE _ _ (BL (ho_zpe P) 1%nat 1%nat (fun _ => 0) (fun _ => 0) 0%nat ltac:(lia) eq_refl eq_refl)).
  assert (Z2 := fun ho => CE _ _ (BL ho _ _ (fun i => ct (nth i tl 0)) (fun i => ct' (nth i tl' 0)) i Hi S9 TT)).
  pose proof (Z2 (ho_eth P)) as Z3. pose proof (Z2 (ho_F P)) as Z4. rewrite !Rmult_plus_distr_l. cbv beta in *.
  repeat split; try exact Z1; try apply Z2; rewrite ?CU; try rewrite Z1; try rewrite Z3; try rewrite Z4; reflexivity.
Qed.
End Harmonic.

(** ** C73: nothing but a missing minimum can stop a run *)
Lemma first_error_ok {A} (l : list (outcome A)) : (forall o, In o l -> exists a, o = Ok a) -> first_error l = None.
Proof.
  induction l as [|o l IH]; intros Q; [reflexivity|]. destruct (Q o (or_introl eq_refl)) as [a ->]. simpl.
  apply IH. intros. apply Q. now right.
Qed.
Lemma table_total {A} (d : A) n m f : (forall i j, (i < n)%nat -> (j < m)%nat -> exists a, f i j = Ok a) ->
  exists M, table d n m f = Ok M.
Proof.
  intros Q. unfold table. rewrite first_error_ok; [eauto|]. intros o I.
  apply in_flat_map in I as (i & I1 & I2). apply in_map_iff in I2 as (j & <- & I2). apply in_seq in I1, I2.
  apply Q; lia.
Qed.
Lemma conversion_total t conv u v du dv :
  converts t conv -> meaning t (lower u) = Some du -> meaning t (lower v) = Some dv ->
  exists c, conversion (fun e => conv e u v) = Ok c.
Proof.
  intros C M1 M2. unfold conversion. destruct (conv_compute t conv C 0 u v du dv M1 M2) as (y & -> & _). eauto.
Qed.
Lemma bind_total {A B} (e : outcome A) (f : A -> outcome B) :
  (exists a, e = Ok a) -> (forall a, e = Ok a -> exists b, f a = Ok b) -> exists b, bind e f = Ok b.
Proof. intros [a Ea] Q. rewrite Ea. simpl. apply Q. exact Ea. Qed.

(** The units the ha and qha commands offer (cmd_qha.py:85-99, 137-143). *)
Definition offered (s : settings) : Prop :=
  In (eunit s) ["Ha"; "eV"; "Ry"] /\ In (vunit s) ["A"; "bohr"] /\ In (funit s) ["cm^-1"; "THz"; "Hz"] /\
  In (tunit s) ["K"; "C"] /\ In (punit s) ["GPa"; "kbar"].

Section Complete.
Variable K : constants.
Variables hplanck kboltzmann : R.
Hypothesis PK : positive_constants K.
Variable fit : fit_function.
Variable roots : list R -> list (R * R).
Variable eos_fit : string -> nat -> (nat -> R) -> (nat -> R) -> outcome (R * R * R * R).
Variables kieffer_Cv kieffer_S : nat -> R -> R.
Variable s : settings.
Variable x : input.
Notation run := (run K hplanck kboltzmann fit roots eos_fit kieffer_Cv kieffer_S s x).
Notation ha := (ha_run K hplanck kboltzmann s x).

Lemma known_units : offered s ->
  (exists d, meaning (energy_units K) (lower (eunit s)) = Some d) /\
  (exists d, meaning (ep_energy_units K) (lower (eunit s)) = Some d) /\
  (exists d, meaning (volume_units K) (lower (vunit s)) = Some d) /\
  (exists d, meaning (ep_volume_units K) (lower (vunit s)) = Some d) /\
  (exists d, meaning (frequency_units K) (lower (funit s)) = Some d) /\
  (exists d, meaning temperature_units (lower (tunit s)) = Some d) /\
  (exists d, meaning pressure_units (lower (punit s)) = Some d).
Proof.
  intros (A & B & C & D & E). simpl in A, B, C, D, E.
  repeat split.
  - destruct A as [<-|[<-|[<-|[]]]]; eexists; reflexivity.
  - destruct A as [<-|[<-|[<-|[]]]]; eexists; reflexivity.
  - destruct B as [<-|[<-|[]]]; eexists; reflexivity.
  - destruct B as [<-|[<-|[]]]; eexists; reflexivity.
  - destruct C as [<-|[<-|[<-|[]]]]; eexists; reflexivity.
  - destruct D as [<-|[<-|[]]]; eexists; reflexivity.
  - destruct E as [<-|[<-|[]]]; eexists; reflexivity.
Qed.

(** Every harmonic run in offered units completes. *)
Theorem C73_harmonic_completes tl : offered s -> exists h, ha tl = Ok h.
Proof.
  intros O. destruct (known_units O) as ((de & Me) & _ & _ & _ & (df & Mf) & (dt & Mt) & _). unfold ha_run.
  apply bind_total; [apply (conversion_total _ _ _ _ dt (1, 0) temperature_converts Mt); reflexivity|]. intros ct _.
  apply bind_total.
  { unfold phonons_Hz. apply bind_total; [|eauto].
    apply (conversion_total _ _ _ _ df (1, 0) (frequency_converts K PK) Mf). reflexivity. }
  intros ph _. apply bind_total; [|eauto].
  apply (conversion_total _ _ _ _ (1000 / N_A K, 0) de (energy_converts K PK)); [reflexivity|exact Me].
Qed.

Lemma finalize_total nt np T p r : offered s -> exists r', finalize_run K s nt np T p r = Ok r'.
Proof.
  intros O. destruct (known_units O) as ((de & Me) & _ & (dv & Mv) & _ & _ & _ & (dp & Mp)).
  assert (A1 : exists c, conversion (fun v => convert_volume K v (vunit s) "m") = Ok c)
    by (apply (conversion_total _ _ _ _ dv (1, 0) (volume_converts K PK) Mv); reflexivity).
  assert (A2 : exists c, conversion (fun v => convert_pressure v (punit s) "Pa") = Ok c)
    by (apply (conversion_total _ _ _ _ dp (1, 0) pressure_converts Mp); reflexivity).
  assert (A3 : exists c, conversion (fun v => convert_pressure v "Pa" (punit s)) = Ok c)
    by (apply (conversion_total _ _ _ _ (1, 0) dp pressure_converts); [reflexivity|exact Mp]).
  assert (A4 : exists c, from_eunit K s = Ok c)
    by (apply (conversion_total _ _ _ _ de (1000 / N_A K, 0) (energy_converts K PK) Me); reflexivity).
  assert (A5 : exists c, to_eunit K s = Ok c)
    by (apply (conversion_total _ _ _ _ (1000 / N_A K, 0) de (energy_converts K PK)); [reflexivity|exact Me]).
  unfold finalize_run.
  apply bind_total; [unfold set_enthalpy; do 4 (apply bind_total; [assumption|intros ? _]); eauto|intros ? _].
  apply bind_total; [unfold set_gibbs_free_energy; do 4 (apply bind_total; [assumption|intros ? _]); eauto|intros ? _].
  destruct (nt <? 50)%nat; [eauto|]. do 5 (apply bind_total; [assumption|intros ? _]). eauto.
Qed.
Lemma numerical_total n V Fe idx : offered s -> exists kk, numerical_bulk_modulus K fit s n V Fe idx = Ok kk.
Proof.
  intros O. destruct (known_units O) as (_ & (de & Me) & _ & (dv & Mv) & _ & _ & (dp & Mp)).
  unfold numerical_bulk_modulus. apply bind_total; [|eauto]. unfold conversion. rewrite e2p_value, Me, Mv, Mp. eauto.
Qed.

(** What a run needs of the minimiser: with the polynomial, that every fitted
    free-energy isotherm (the F column of the harmonic table of the same input)
    has a minimum of F + PV; with the equation of state, that the fit returns. *)
Definition minimum_everywhere (tl pl : list R) : Prop :=
  (minimization s = "eos" /\
   forall h p0, ha tl = Ok h -> forall i j, (i < List.length tl)%nat -> (j < List.length pl)%nat ->
     pressure_to_energy K (nth j pl 0) (eunit s) (vunit s) (punit s) = Some p0 ->
     forall Y, (forall q, (q < nvol x)%nat -> Y q = ha_F h i q + p0 * volume x q) ->
     exists a, eos_fit (eos_function s) (nvol x) (volume x) Y = Ok a) \/
  (minimization s = "poly" /\ least_squares_solver fit /\ distinct (nvol x) (volume x) /\ (edeg s < nvol x)%nat /\
   (forall c, (List.length c <= Nat.max 1 (edeg s))%nat -> roots_exact roots c) /\
   forall h p0, ha tl = Ok h -> forall i j, (i < List.length tl)%nat -> (j < List.length pl)%nat ->
     pressure_to_energy K (nth j pl 0) (eunit s) (vunit s) (punit s) = Some p0 ->
     let f := fit (nvol x) (volume x) (ha_F h i) (edeg s) in
     exists v, polyval v (deriv f) + p0 = 0 /\ 0 < polyval v (deriv (deriv f))).
Lemma minimize_total tl pl pars h i j Fe :
  offered s -> minimum_everywhere tl pl -> ha tl = Ok h -> (i < List.length tl)%nat -> (j < List.length pl)%nat ->
  (forall q, (q < nvol x)%nat -> Fe q = ha_F h i q) ->
  pars = None \/ pars = Some (fit (nvol x) (volume x) Fe (edeg s)) ->
  exists a, minimize_volume K fit roots eos_fit s x (volume x) Fe (nth j pl 0) pars = Ok a.
Proof.
  intros O ME EH Hi Hj EF EP.
  destruct (known_units O) as (_ & (de & Me) & _ & (dv & Mv) & _ & _ & (dp & Mp)).
  unfold minimize_volume.
  assert (TP : forall p, exists p0, pressure_to_energy K p (eunit s) (vunit s) (punit s) = Some p0)
    by (intros p; rewrite p2e_value, Me, Mv, Mp; eauto).
  destruct ME as [(MI & A)|(MI & SOL & D & L & RO & A)].
  - assert (PO : poly_on s = false) by (unfold poly_on; rewrite MI; reflexivity).
    assert (EO : eos_on s = true) by (unfold eos_on; rewrite MI; reflexivity). rewrite PO, EO.
    apply bind_total.
    + unfold find_eos_minimum, set_target_pressure. destruct (TP (nth j pl 0)) as [p0 Ep]. rewrite Ep. cbn [bind].
      apply (A h p0 EH i j Hi Hj Ep). intros q Hq. cbv beta. now rewrite EF.
    + intros (((e0 & k0) & k1) & v0) _. unfold e2p. rewrite e2p_value, Me, Mv, Mp. simpl. eauto.
  - assert (PO : poly_on s = true) by (unfold poly_on; rewrite MI; reflexivity). rewrite PO.
    set (f := fit (nvol x) (volume x) Fe (edeg s)) in *.
    replace (match pars with Some c => c | None => f end) with f by (destruct EP as [->| ->]; reflexivity).
    destruct (TP (nth j pl 0)) as [p0 Ep]. unfold set_target_pressure. rewrite Ep. cbn [bind].
    destruct (A h p0 EH i j Hi Hj Ep) as (v & A1 & A2).
    assert (X : forall w, polyval w f = polyval w (fit (nvol x) (volume x) (ha_F h i) (edeg s))).
    { intros w. apply fit_ext; auto. }
    rewrite <- (deriv_ext _ _ X) in A1. rewrite <- (deriv_ext _ _ (deriv_ext _ _ X)) in A2.
    destruct (volume_at roots f p0) as [v0|] eqn:Ev; [eauto|]. exfalso.
    assert (LF : List.length f = S (edeg s)) by (apply SOL; auto).
    pose proof (slope_length f p0) as LC. rewrite LF in LC. simpl Nat.pred in LC.
    apply (proj1 (C24_raises_iff_no_minimum roots f p0 (RO _ LC)) Ev). exists v. split; assumption.
Qed.

Theorem C73_run_completes tl pl :
  offered s -> kieffer_on s = false -> minimum_everywhere tl pl -> exists r, run tl pl = Ok r.
Proof.
  intros O KO ME. destruct (C73_harmonic_completes tl O) as [h EH].
  unfold QhaRunModel.run. pose proof EH as EH'. unfold ha_run in EH.
  apply bind_ok in EH as (ct & Ect & EH). apply bind_ok in EH as (ph & Eph & EH). apply bind_ok in EH as (ce & Ece & EH).
  rewrite Ect. cbn [bind]. destruct (fine_grid 5 (5 / 100)) as [g c]. rewrite Eph. cbn [bind]. rewrite KO.
  apply bind_total; [|intros; apply finalize_total, O].
  assert (EF : forall i, ha_F h i = free_energy (List.length tl) (nvol x) (static_energy x)
     (fun i j => ce (vibrational_free_energy (QhaRunModel.P K hplanck kboltzmann) (List.length tl)
        (fun i => ct (nth i tl 0)) ph (weight x) i j)) i).
  { intros i. assert (Q : forall a b : ha_results, Ok a = Ok b -> b = a) by congruence. rewrite (Q _ _ EH). reflexivity. }
  clear EH.
  destruct (String.eqb (qha_scheme s) "td") eqn:ST; [|destruct (String.eqb (qha_scheme s) "freq"); [|eauto]].
  - unfold run_thermodynamics_interpolation. rewrite Ece. cbn [bind]. apply bind_total.
    + apply table_total. intros i j Hi Hj. eapply (minimize_total tl pl); eauto.
      intros q Hq. rewrite EF. field.
    + intros vk _. apply bind_total; [|eauto]. destruct (poly_on s); [|eauto].
      apply table_total. intros. apply numerical_total, O.
  - unfold run_frequency_interpolation. rewrite Ece. cbn [bind]. apply bind_total.
    + apply table_total. intros i j Hi Hj. eapply (minimize_total tl pl); eauto. intros q _. now rewrite EF.
    + intros vk _. apply bind_total; [|eauto]. destruct (poly_on s); [|eauto].
      apply table_total. intros. apply numerical_total, O.
Qed.
End Complete.

(** ** A concrete system: four volumes, one mode, a parabolic static energy. *)
Definition linear_roots (c : list R) : list (R * R) :=
  match c with
  | [a; b] => if Req_EM_T b 0 then [] else [(- a / b, 0)]
  | _ => []
  end.
Lemma linear_roots_exact c : (List.length c <= 2)%nat -> roots_exact linear_roots c.
Proof.
  intros L NV x. destruct c as [|a [|b [|]]]; simpl in L; try lia.
  - destruct NV. intros y. reflexivity.
  - simpl. split; [tauto|]. intros E. destruct NV. intros y. simpl. exact E.
  - simpl. destruct (Req_EM_T b 0) as [->|NZ].
    + split; [intros []|]. intros E. destruct NV. intros y. simpl. lra.
    + split.
      * intros [E|[]]. injection E as <-. field. exact NZ.
      * intros E. left. f_equal. apply Rmult_eq_reg_r with b; [|exact NZ]. field_simplify; [lra|exact NZ].
Qed.
Definition sys_settings (scheme minim : string) : settings :=
  {| qha_scheme := scheme; minimization := minim; eos_function := "birchmurnaghan"; kieffer_on := false; edeg := 2; fdeg := 1;
     eunit := "Ha"; funit := "cm^-1"; vunit := "A"; tunit := "K"; punit := "GPa" |}.
Definition sys_input : input :=
  {| nvol := 4; volume := fun k => 10 + INR k; static_energy := fun k => (INR k - 1) ^ 2;
     frequencies := {| nb := 1; nf := 1; nv := 4; freq := fun _ _ _ => 100 |};
     weights := fun _ => 1; total_q_points := 1 |}.
Definition sys_run scheme minim :=
  QhaRunModel.run codata (6/10^34) (1/10^23) gram_schmidt_fit linear_roots (fun _ _ _ _ => Ok (0, 1, 4, 11))
    (fun _ _ => 0) (fun _ _ => 0) (sys_settings scheme minim) sys_input.
Definition sys_T : list R := map (fun k => 10 * INR k) (seq 0 60).
Definition sys_P : list R := [0; 5].
Lemma sys_offered scheme minim : offered (sys_settings scheme minim).
Proof. repeat split; simpl; auto. Qed.
Lemma sys_consistent : consistent sys_input.
Proof. split; [reflexivity|]. intros a b _ _ E. cbn [volume sys_input] in E. apply INR_eq. lra. Qed.
Lemma sys_positive : 0 < 6 / 10 ^ 34 /\ 0 < 1 / 10 ^ 23.
Proof. assert (0 < 10 ^ 34) by (apply pow_lt; lra). assert (0 < 10 ^ 23) by (apply pow_lt; lra).
  split; apply Rdiv_lt_0_compat; lra. Qed.
Lemma sys_minimum scheme minim : minim = "poly" \/ minim = "eos" ->
  minimum_everywhere codata (6/10^34) (1/10^23) gram_schmidt_fit linear_roots (fun _ _ _ _ => Ok (0, 1, 4, 11))
    (sys_settings scheme minim) sys_input sys_T sys_P.
Proof.
  intros [->| ->]; [right|left; split; [reflexivity|eauto]].
  split; [reflexivity|]. split; [apply gram_schmidt_solver|]. split; [apply sys_consistent|].
  split; [simpl; lia|]. split; [intros c Lc; apply linear_roots_exact; exact Lc|].
  intros h p0 EH i j Hi Hj _. cbv zeta.
  destruct (ha_inv _ _ _ _ _ _ _ EH) as (d & ct & ph & ce & _ & _ & Eph & _ & _ & _ & _ & _ & FV & _ & FF).
  assert (CN : forall q, (q < 4)%nat -> ha_Fvib h i q = ha_Fvib h i 0%nat).
  { intros q Hq. rewrite !FV. f_equal. unfold vibrational_free_energy.
    unfold phonons_Hz in Eph. apply bind_ok in Eph as (cf & _ & Eph).
    assert (Q : forall a b : bands, Ok a = Ok b -> b = a) by congruence. rewrite (Q _ _ Eph).
    rewrite !band_loop_sum by (simpl nv; assumption || lia). reflexivity. }
  set (C := ha_Fvib h i 0%nat) in *.
  assert (X : forall w, polyval w (gram_schmidt_fit (nvol sys_input) (volume sys_input) (ha_F h i) 2%nat) = polyval w [121 + C; -22; 1]).
  { intros w. apply fit_exact; [apply gram_schmidt_solver|apply sys_consistent|simpl; lia|simpl; lia|].
    intros q Hq. rewrite FF by assumption. rewrite CN by exact Hq. cbn [static_energy volume sys_input polyval]. ring. }
  exists (11 - p0 / 2). change (edeg (sys_settings scheme "poly")) with 2%nat.
  rewrite (deriv_ext _ _ X), (deriv_ext _ _ (deriv_ext _ _ X)). simpl. lra.
Qed.
Example C73_instance scheme minim : minim = "poly" \/ minim = "eos" -> exists r, sys_run scheme minim sys_T sys_P = Ok r.
Proof.
  intros M. apply C73_run_completes; [apply codata_positive|apply sys_offered|reflexivity|apply sys_minimum, M].
Qed.
(** The hypotheses of the theorems on runs are met by these runs; at zero
    temperature and pressure the polynomial run reports the minimum of the parabola. *)
Example C45_C69_instance : exists r, sys_run "td" "poly" sys_T sys_P = Ok r /\
  F r 5%nat 0%nat = Utot r 5%nat 0%nat - 50 * Ent r 5%nat 0%nat / 1000 /\ F r 5%nat 1%nat = Utot r 5%nat 1%nat - 50 * Ent r 5%nat 1%nat / 1000 /\
  (0 < VT r 5%nat 1%nat -> 0 < KT r 5%nat 1%nat).
Proof.
  destruct (C73_instance "td" "poly" (or_introl eq_refl)) as [r E]. exists r. split; [exact E|].
  destruct sys_positive as [P1 P2].
  assert (T5 : si (1, 0) (nth 5 sys_T 0) = 50) by (unfold si, sys_T; simpl; lra).
  assert (A : forall j, F r 5%nat j = Utot r 5%nat j - 50 * Ent r 5%nat j / 1000).
  { intros j. rewrite <- T5.
    apply (C45_thermodynamic_scheme codata _ _ codata_positive P1 P2 _ _ _ _ _ (sys_settings "td" "poly") sys_input sys_T sys_P r (1, 0)
      gram_schmidt_solver sys_consistent ltac:(simpl; lia) eq_refl E eq_refl 5%nat j); [simpl; lia|rewrite T5; lra]. }
  split; [apply A|]. split; [apply A|].
  destruct (C69_polynomial_equilibrium codata _ _ codata_positive _ _ _ _ _ (sys_settings "td" "poly") sys_input sys_T sys_P r _ _ _
    gram_schmidt_solver (proj2 sys_consistent) ltac:(simpl; lia) ltac:(simpl; lia)
    (fun c L => linear_roots_exact c L) eq_refl eq_refl E eq_refl eq_refl eq_refl 5%nat ltac:(simpl; lia)) as (f & _ & Q).
  destruct (Q 1%nat ltac:(simpl; lia)) as (_ & _ & _ & _ & Q5). exact Q5.
Qed.
Example C47_C70_instance : exists r, sys_run "freq" "eos" sys_T sys_P = Ok r /\
  F r 5%nat 0%nat = Utot r 5%nat 0%nat - 50 * Ent r 5%nat 0%nat / 1000 /\
  Cp r 5%nat 0%nat = Cv r 5%nat 0%nat + CpCv r 5%nat 0%nat /\ fitted_equilibrium (sys_settings "freq" "eos") 5 (VT r 5%nat 1%nat) (KT r 5%nat 1%nat)
     (Ha_J codata, 0) ((Angstrom_m codata) ^ 3, 0) (10 ^ 9, 0).
Proof.
  destruct (C73_instance "freq" "eos" (or_intror eq_refl)) as [r E]. exists r. split; [exact E|].
  destruct sys_positive as [P1 P2].
  assert (T5 : si (1, 0) (nth 5 sys_T 0) = 50) by (unfold si, sys_T; simpl; lra).
  split.
  { rewrite <- T5.
    apply (C45_frequency_scheme codata _ _ codata_positive P1 P2 _ _ _ (fun _ _ => 0) (fun _ _ => 0) (sys_settings "freq" "eos") sys_input sys_T sys_P r (1, 0)
      eq_refl E eq_refl 5%nat 0%nat). rewrite T5. lra. }
  split.
  { pose proof E as E2. unfold sys_run in E2. destruct (long_inv _ _ _ _ _ _ _ _ _ _ _ _ _ E2 ltac:(simpl; lia)) as (? & ? & ? & ? & ? & ? & _ & _ & _ & _ & _ & _ & _ & _ & Q & _).
    apply Q. }
  apply (C69_eos_equilibrium codata _ _ codata_positive _ _ _ (fun _ _ => 0) (fun _ _ => 0) (sys_settings "freq" "eos") sys_input sys_T sys_P r
    _ _ _ eq_refl ltac:(discriminate) (or_intror eq_refl) E eq_refl eq_refl eq_refl 5%nat 1%nat); simpl; lia.
Qed.
(** A short list of temperatures: the row of zeros of C46. *)
Example C46_instance : exists r, QhaRunModel.run codata (6/10^34) (1/10^23) gram_schmidt_fit linear_roots
    (fun _ _ _ _ => Ok (0, 1, 4, 11)) (fun _ _ => 0) (fun _ _ => 0) (sys_settings "td" "eos") sys_input [300] [0] = Ok r /\ Cp r 0%nat 0%nat = 0.
Proof.
  destruct (C73_run_completes codata (6/10^34) (1/10^23) codata_positive gram_schmidt_fit linear_roots
    (fun _ _ _ _ => Ok (0, 1, 4, 11)) (fun _ _ => 0) (fun _ _ => 0) (sys_settings "td" "eos") sys_input [300] [0]) as [r E].
  - apply sys_offered.
  - reflexivity.
  - left. split; [reflexivity|eauto].
  - exists r. split; [exact E|]. apply (C46_short_grid _ _ _ _ _ _ _ _ _ _ _ _ _ E). simpl. lia.
Qed.
Example C71_instance : exists h, ha_run codata (6/10^34) (1/10^23) (sys_settings "td" "poly") sys_input sys_T = Ok h /\
  ha_F h 5%nat 2%nat = ha_Utot h 5%nat 2%nat - 50 * ha_S h 5%nat 2%nat / 1000.
Proof.
  destruct (C73_harmonic_completes codata (6/10^34) (1/10^23) codata_positive (sys_settings "td" "poly") sys_input sys_T (sys_offered _ _)) as [h E].
  exists h. split; [exact E|]. destruct sys_positive as [P1 P2].
  assert (T5 : si (1, 0) (nth 5 sys_T 0) = 50) by (unfold si, sys_T; simpl; lra).
  rewrite <- T5. apply (C71_table codata _ _ codata_positive P1 P2 (sys_settings "td" "poly") sys_input sys_T h (1, 0) eq_refl E eq_refl 5%nat 2%nat); [simpl; lia|simpl; lia|rewrite T5; lra].
Qed.
(** The same crystal described with temperatures in degrees Celsius. *)
Example C72_instance : exists h h',
  ha_run codata (6/10^34) (1/10^23) (sys_settings "td" "poly") sys_input [300] = Ok h /\
  ha_run codata (6/10^34) (1/10^23)
    {| qha_scheme := "td"; minimization := "poly"; eos_function := "birchmurnaghan"; kieffer_on := false; edeg := 2; fdeg := 1;
       eunit := "Ha"; funit := "cm^-1"; vunit := "A"; tunit := "C"; punit := "GPa" |} sys_input [300 - 27315/100] = Ok h' /\
  ha_S h 0%nat 1%nat = ha_S h' 0%nat 1%nat.
Proof.
  destruct (C73_harmonic_completes codata (6/10^34) (1/10^23) codata_positive (sys_settings "td" "poly") sys_input [300] (sys_offered _ _)) as [h E].
  match goal with |- context [ha_run _ _ _ ?z _ [300 - _]] => set (s' := z) end.
  destruct (C73_harmonic_completes codata (6/10^34) (1/10^23) codata_positive s' sys_input [300 - 27315/100]) as [h' E'].
  { repeat split; simpl; auto. }
  exists h, h'. split; [exact E|]. split; [exact E'|].
  assert (PH : 0 < Ha_J codata) by apply codata_positive.
  apply Rmult_eq_reg_l with (Ha_J codata); [|lra].
  refine (proj1 (proj2 (proj2 (proj2 (C72_unit_invariance codata (6/10^34) (1/10^23) codata_positive (sys_settings "td" "poly") s' sys_input sys_input [300] [300 - 27315/100] h h'
    (Ha_J codata, 0) (Ha_J codata, 0) _ eq_refl E E' eq_refl eq_refl 0%nat 1%nat _ _))))); try (simpl; lia).
  constructor; try reflexivity.
  - intros q b k df df' A B. change (funit s') with (funit (sys_settings "td" "poly")) in B. congruence.
  - intros j de de' A B. change (eunit s') with (eunit (sys_settings "td" "poly")) in B. congruence.
  - intros i d d' Li A B. change (Some (1, 0) = Some d) in A. change (Some (1, 27315/100) = Some d') in B.
    injection A as <-. injection B as <-. simpl in Li. destruct i as [|i]; [|lia]. unfold si; simpl; lra.
Qed.

Print Assumptions C69_polynomial_equilibrium.
Print Assumptions C69_no_minimum_raises.
Print Assumptions C69_eos_equilibrium.
Print Assumptions C71_table.
Print Assumptions C71_values.
Print Assumptions C72_unit_invariance.
Print Assumptions C73_harmonic_completes.
Print Assumptions C73_run_completes.
