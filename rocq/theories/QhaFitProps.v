(** C81: where the numbers of a quasi-harmonic run come from. Each column is an
    interpolation of the harmonic one (or of the frequencies) at the reported
    volume; volume and bulk modulus come from fits to the harmonic free energies. *)
From Coq Require Import Reals String List Bool Arith Lia Lra.
From Coquelicot Require Import Coquelicot.
From Verif Require Import Py ParModel StatMechModel StatMechSpec StatMechProofs StatMechProps ThermoModel ThermoProps
  UnitsModel UnitsSpec UnitsProofs UnitsProps PolyModel PolyProps PolyfitProofs EvEosModel EvEosProps
  GridModel GridProps QhaRunModel QhaRunProps QhaRunProps2 QhaEqProps.
Import ListNotations.
Open Scope string_scope.
Open Scope list_scope.
Open Scope R_scope.

(** ** Specification *)
(** c is a least-squares polynomial of degree d through the points (X k, Y k) *)
Definition fitted (d n : nat) (X Y : nat -> R) (c : list R) : Prop :=
  List.length c = S d /\ forall k, (k <= d)%nat -> psum (fun j => (Y j - polyval (X j) c) * X j ^ k) n = 0.
(** the five volumes around V *)
Definition near (V : R) (k : nat) : R := V + V * ((INR k - 2) * (5 / 10000)).
(** bulk modulus and its pressure derivative from a free energy Fg: pressures and
    moduli of a polynomial through five free energies, then a parabola K(P) *)
Definition moduli_from (Fg : R -> R) (d : nat) (u V kt kp : R) : Prop :=
  exists g, fitted d 5 (near V) (fun k => Fg (near V k)) g /\
    let pr k := - (u * polyval (near V k) (deriv g)) in
    let bm k := u * (near V k * polyval (near V k) (deriv (deriv g))) in
    kt = bm 2%nat /\ (distinct 5 pr -> exists q, fitted 2 5 pr bm q /\ kp = polyval (pr 2%nat) (deriv q)).

Lemma fitted_solver_at fit n X X' Y Y' d : least_squares_solver fit -> distinct n X -> (d < n)%nat ->
  (forall j, (j < n)%nat -> X j = X' j) -> (forall j, (j < n)%nat -> Y j = Y' j) -> fitted d n X' Y' (fit n X Y d).
Proof.
  intros SOL D L EX E. destruct (SOL n X Y d D L) as (LE & LS). split; [exact LE|]. intros k Hk. rewrite <- (LS k) by lia.
  apply psum_ext. intros j Hj. rewrite E, EX by assumption. now rewrite polyval_poly, LE.
Qed.
Lemma fitted_solver fit n X Y Y' d : least_squares_solver fit -> distinct n X -> (d < n)%nat ->
  (forall j, (j < n)%nat -> Y j = Y' j) -> fitted d n X Y' (fit n X Y d).
Proof. intros. apply fitted_solver_at; auto. Qed.
Lemma fitted_unique n X Y d c e : distinct n X -> (d < n)%nat -> fitted d n X Y c -> fitted d n X Y e -> forall v, polyval v c = polyval v e.
Proof.
  intros D L (L1 & F1) (L2 & F2) v. rewrite !polyval_poly, L1, L2. apply least_squares_unique with X Y n; auto; intros k Hk.
  - transitivity (psum (fun j => (Y j - polyval (X j) c) * X j ^ k) n); [|apply F1; lia]. apply psum_ext. intros j _. now rewrite polyval_poly, L1.
  - transitivity (psum (fun j => (Y j - polyval (X j) e) * X j ^ k) n); [|apply F2; lia]. apply psum_ext. intros j _. now rewrite polyval_poly, L2.
Qed.
Lemma fitted_exact n X Y d c e : distinct n X -> (d < n)%nat -> fitted d n X Y c -> (List.length e <= S d)%nat ->
  (forall j, (j < n)%nat -> Y j = polyval (X j) e) -> forall v, polyval v c = polyval v e.
Proof.
  intros D L (L1 & F1) Le E v. rewrite polyval_poly, L1, <- (poly_as_polyval e (S d)) by assumption. apply least_squares_unique with X Y n; auto; intros k Hk.
  - transitivity (psum (fun j => (Y j - polyval (X j) c) * X j ^ k) n); [|apply F1; lia]. apply psum_ext. intros j _. now rewrite polyval_poly, L1.
  - rewrite (psum_ext _ (fun _ => 0)); [apply psum_0|]. intros j Hj. rewrite poly_as_polyval, E by auto. ring.
Qed.

Local Arguments fine_grid : simpl never.
Section Run.
Variable K : constants.
Variables hplanck kboltzmann : R.
Hypothesis PK : positive_constants K.
Hypotheses (Hh : 0 < hplanck) (Hk : 0 < kboltzmann).
Variable fit : fit_function.
Variable roots : list R -> list (R * R).
Variable eos_fit : string -> nat -> (nat -> R) -> (nat -> R) -> outcome (R * R * R * R).
Variables kieffer_Cv kieffer_S : nat -> R -> R.
Variable s : settings.
Variable x : input.
Notation run := (run K hplanck kboltzmann fit roots eos_fit kieffer_Cv kieffer_S s x).
Notation ha := (ha_run K hplanck kboltzmann s x).
Notation P := (QhaRunModel.P K hplanck kboltzmann).
Notation fits := (fitted (edeg s) (nvol x) (volume x)).

Lemma ha_open tl h ct ph : conversion (fun t => convert_temperature t (tunit s) "K") = Ok ct -> phonons_Hz K s x = Ok ph -> ha tl = Ok h ->
  exists ce, to_eunit K s = Ok ce /\ let nt := List.length tl in let T i := ct (nth i tl 0) in
    (forall j, ha_Uzp h j = ce (zero_point_energy P 1 (fun _ => 0) ph (weight x) 0%nat j)) /\
    (forall i j, ha_Uth h i j = ce (thermal_energy P nt T ph (weight x) i j)) /\
    (forall i j, ha_S h i j = ce (entropy P nt T ph (weight x) i j)) /\
    (forall i j, ha_Cv h i j = ce (isochoric_heat_capacity P nt T ph (weight x) i j)) /\
    (forall i j, ha_Fvib h i j = ce (vibrational_free_energy P nt T ph (weight x) i j)) /\
    (forall i j, ha_Utot h i j = internal_energy nt (nvol x) (static_energy x) (fun j => ce (zero_point_energy P 1 (fun _ => 0) ph (weight x) 0%nat j)) (fun i j => ce (thermal_energy P nt T ph (weight x) i j)) i j) /\
    (forall i j, ha_F h i j = free_energy nt (nvol x) (static_energy x) (fun i j => ce (vibrational_free_energy P nt T ph (weight x) i j)) i j).
Proof.
  intros C E H. unfold ha_run in H. rewrite C, E in H. cbn [bind] in H. apply bind_ok in H as (ce & Ece & H). injection H as <-.
  exists ce. split; [exact Ece|]. cbn [ha_Uzp ha_Uth ha_Utot ha_S ha_F ha_Fvib ha_Cv]. repeat split.
Qed.

(** Thermodynamic scheme: every column of a row of constant temperature is the
    least-squares polynomial of the harmonic column at the reported volume. *)
Theorem C81_thermodynamic_columns tl pl r h : least_squares_solver fit -> distinct (nvol x) (volume x) -> (edeg s < nvol x)%nat ->
  qha_scheme s = "td" -> run tl pl = Ok r -> ha tl = Ok h ->
  (exists f, fits (ha_Uzp h) f /\ forall i j, Uzp r i j = polyval (VT r i j) f) /\
  forall i, exists fth ftot fs ff fv fc,
    fits (ha_Uth h i) fth /\ fits (ha_Utot h i) ftot /\ fits (ha_S h i) fs /\ fits (ha_F h i) ff /\ fits (ha_Fvib h i) fv /\ fits (ha_Cv h i) fc /\
    forall j, let V := VT r i j in
    Uth r i j = polyval V fth /\ Utot r i j = polyval V ftot /\ Ent r i j = polyval V fs /\ F r i j = polyval V ff /\ Fvib r i j = polyval V fv /\ Cv r i j = polyval V fc.
Proof.
  intros SOL D DE SC E HA.
  destruct (run_inv _ _ _ _ _ _ _ _ _ _ _ _ _ E) as (ct & ph & r0 & Ect & Eph & _ & Etd & _ & Ef).
  destruct (ha_open tl h ct ph Ect Eph HA) as (ce & Ece & A1 & A2 & A3 & A4 & A5 & A6 & A7).
  destruct (finalize_keeps _ _ _ _ _ _ _ _ Ef) as (-> & -> & -> & -> & -> & -> & -> & -> & _).
  specialize (Etd SC). unfold run_thermodynamics_interpolation in Etd. rewrite Ece in Etd. cbn [bind] in Etd.
  apply bind_ok in Etd as (vk & Evk & Etd). apply bind_ok in Etd as (kk & _ & Etd). injection Etd as <-.
  cbn [scheme_results Uzp Uth Utot Ent F Fvib Cv VT]. split.
  - eexists. split; [|intros i j; reflexivity]. apply fitted_solver; auto.
  - intros i. do 6 eexists.
    do 6 (split; [shelve|]). intros j. repeat split.
    Unshelve. all: apply fitted_solver; [exact SOL|exact D|exact DE|]; intros j Hj; cbv beta.
    + symmetry. apply A2.
    + symmetry. apply A6.
    + rewrite A3. ring.
    + rewrite A7. field.
    + rewrite A5. field.
    + rewrite A4. ring.
Qed.

(** Oscillators *)
Definition oscillator_free (T w : R) : R := hplanck * w / 2 + kboltzmann * T * ln (1 - exp (- (hplanck * w / (kboltzmann * T)))).
(** Sum over the modes with frequencies w (Hz), weights normalised by their declared total *)
Definition mean_of (w : nat -> nat -> R) (g : R -> R) : R :=
  Rsum (nb (frequencies x)) (fun q => weights x q / total_q_points x * Rsum (nf (frequencies x)) (fun b => counted g (w q b))).
Lemma ho_values T : 0 < T ->
  (forall w, 1000 / N_A K * ho_zpe P 0 w = counted (oscillator_zero hplanck) w) /\
  (forall w, 1000 / N_A K * ho_eth P T w = counted (oscillator_energy hplanck kboltzmann T) w) /\
  (forall w, / 1000 * (1000 / N_A K * ho_S P T w) = counted (oscillator_entropy hplanck kboltzmann T) w) /\
  (forall w, / 1000 * (1000 / N_A K * ho_Cv P T w) = counted (oscillator_capacity hplanck kboltzmann T) w) /\
  (forall w, 1000 / N_A K * ho_F P T w = counted (oscillator_free T) w).
Proof.
  intros HT. assert (PN : 0 < N_A K) by apply PK.
  assert (EP : forall w, 0 < w -> 0 < exp (hplanck * w / (kboltzmann * T)) - 1).
  { intros w W. apply expm1_pos. apply Rmult_lt_0_compat; [nra|]. apply Rinv_0_lt_compat. nra. }
  assert (NT : Req_b T 0 = false) by (unfold Req_b; destruct (Req_EM_T T 0); [lra|reflexivity]).
  repeat split; intros w; unfold counted, ho_zpe, ho_eth, ho_S, ho_Cv, ho_F, Rle_b; destruct (Rle_dec w 0) as [L|L]; cbn [orb]; rewrite ?NT; cbn [andb]; try ring;
    apply Rnot_le_lt in L; pose proof (EP w L) as EW; cbn [StatMechModel.NA hpl KB QhaRunModel.P].
  - unfold oscillator_zero. field. lra.
  - unfold oscillator_energy, expm1. field. repeat split; lra.
  - unfold oscillator_entropy, oscillator_energy, expm1. field. repeat split; lra.
  - unfold oscillator_capacity, expm1. unfold Req_b. destruct (Req_EM_T _ 0) as [Z|Z].
    + exfalso. assert (0 < (hplanck * w / (kboltzmann * T) / (exp (hplanck * w / (kboltzmann * T)) - 1)) ^ 2); [|lra].
      apply pow_lt. apply Rmult_lt_0_compat; [|now apply Rinv_0_lt_compat]. apply Rmult_lt_0_compat; [nra|]. apply Rinv_0_lt_compat. nra.
    + clear Z. field. repeat split; lra.
  - unfold oscillator_free. field. lra.
Qed.
Lemma to_eunit_joule ce de : to_eunit K s = Ok ce -> meaning (energy_units K) (lower (eunit s)) = Some de -> forall e, fst de * ce e = 1000 / N_A K * e.
Proof.
  intros Ece Me e. unfold to_eunit in Ece. destruct (energy_scale K PK _ _ _ Ece) as (du & dv & N1 & N2 & P1 & P2 & SC).
  rewrite Me in N2. injection N2 as <-. cbn in N1. injection N1 as <-. rewrite SC. cbn [fst] in *. field. split; [|lra].
  apply Rgt_not_eq. apply PK.
Qed.
Lemma phonons_value ph df : phonons_Hz K s x = Ok ph -> meaning (frequency_units K) (lower (funit s)) = Some df ->
  forall q b k, freq ph q b k = si df (freq (frequencies x) q b k).
Proof.
  intros Eph Mf q b k. unfold phonons_Hz in Eph. apply bind_ok in Eph as (cf & Ecf & Eph). injection Eph as <-. cbn [freq].
  destruct (conversion_si _ _ _ _ _ (frequency_converts K PK) Ecf) as (du & dv & N1 & N2 & SI).
  rewrite Mf in N1. injection N1 as <-. cbn in N2. injection N2 as <-. specialize (SI (freq (frequencies x) q b k)).
  unfold si in SI at 1. cbn [fst snd] in SI. lra.
Qed.
(** one column of the frequency scheme at a volume of the fine grid *)
Lemma column ce de ph fpars ho tk g c V k : to_eunit K s = Ok ce -> meaning (energy_units K) (lower (eunit s)) = Some de -> phonons_Hz K s x = Ok ph ->
  (forall q b, List.length (fpars q b) = S (fdeg s)) -> (k < 5)%nat -> (forall w, c * (1000 / N_A K * ho tk w) = counted g w) ->
  c * (fst de * ce (band_loop ho 1 (fun _ => tk) (phon_grid s (fst (fine_grid 5 (5/100))) ph fpars V) (weight x) 0%nat k)) =
    mean_of (fun q b => polyval (V k) (fpars q b)) g.
Proof.
  intros Ece Me Eph LF Hk5 G. destruct (phonons_shape K s x ph Eph) as (Q1 & Q2 & Q3).
  rewrite (to_eunit_joule ce de Ece Me), band_loop_sum by (cbn [phon_grid nv]; rewrite ?fine_grid_length; lia).
  unfold band_sum, mean_of. cbn [phon_grid nb nf freq]. rewrite Q1, Q2, !Rsum_scale. apply Rsum_ext. intros q _. rewrite !Rsum_scale.
  apply Rsum_ext. intros b Hb. rewrite <- G, interp_value by (rewrite ?fine_grid_length; lia).
  replace (poly _ (S (fdeg s)) (V k)) with (polyval (V k) (fpars q b)) by (rewrite polyval_poly, LF; reflexivity). unfold weight. ring.
Qed.

(** Frequency scheme: columns are sums over oscillators whose frequencies are the
    fitted polynomials at the reported volume. *)
Definition frequency_free_energy (de : R * R) (T : R) (e : list R) (fp : nat -> nat -> list R) (w : R) : R :=
  polyval w e + mean_of (fun q b => polyval w (fp q b)) (oscillator_free T) / fst de.
Definition frequency_fits (df : R * R) (e : list R) (fp : nat -> nat -> list R) : Prop :=
  fits (static_energy x) e /\ forall q b, fitted (fdeg s) (nvol x) (volume x) (fun k => si df (freq (frequencies x) q b k)) (fp q b).
Theorem C81_frequency_columns tl pl r d (de df : R * R) : least_squares_solver fit -> distinct (nvol x) (volume x) -> (edeg s < nvol x)%nat -> (fdeg s < nvol x)%nat ->
  qha_scheme s = "freq" -> run tl pl = Ok r ->
  meaning temperature_units (lower (tunit s)) = Some d -> meaning (energy_units K) (lower (eunit s)) = Some de -> meaning (frequency_units K) (lower (funit s)) = Some df ->
  exists e fp, frequency_fits df e fp /\
  forall i j, 0 < si d (nth i tl 0) ->
  let T := si d (nth i tl 0) in let V := VT r i j in let mean := mean_of (fun q b => polyval V (fp q b)) in
    fst de * Uzp r i j = mean (oscillator_zero hplanck) /\ fst de * Uth r i j = mean (oscillator_energy hplanck kboltzmann T) /\
    fst de * Ent r i j / 1000 = mean (oscillator_entropy hplanck kboltzmann T) /\ fst de * Cv r i j / 1000 = mean (oscillator_capacity hplanck kboltzmann T) /\
    fst de * Fvib r i j = mean (oscillator_free T) /\
    Utot r i j = polyval V e + Uzp r i j + Uth r i j /\ F r i j = polyval V e + Fvib r i j.
Proof.
  intros SOL D DE DF SC E Mt Me Mf.
  destruct (run_inv _ _ _ _ _ _ _ _ _ _ _ _ _ E) as (ct & ph & r0 & Ect & Eph & _ & _ & Efr & Ef).
  destruct (finalize_keeps _ _ _ _ _ _ _ _ Ef) as (-> & -> & -> & -> & -> & -> & -> & -> & _).
  destruct (kelvin s ct Ect) as (d' & Md & KE). rewrite Mt in Md. injection Md as <-.
  specialize (Efr SC). remember (fst (fine_grid 5 (5/100))) as gg eqn:Egg. remember (snd (fine_grid 5 (5/100))) as cc eqn:Ecc.
  unfold run_frequency_interpolation in Efr.
  apply bind_ok in Efr as (ce & Ece & Efr). apply bind_ok in Efr as (vk & Evk & Efr). apply bind_ok in Efr as (kk & _ & Efr). injection Efr as <-.
  cbn [scheme_results Uzp Uth Utot Ent F Fvib Cv VT].
  exists (fit (nvol x) (volume x) (static_energy x) (edeg s)), (fun q b => fit (nvol x) (volume x) (fun k => freq ph q b k) (fdeg s)).
  split; [split|].
  - apply fitted_solver; auto.
  - intros q b. apply fitted_solver; auto. intros k _. now apply phonons_value.
  - intros i j HT. set (T := si d (nth i tl 0)) in *. set (V := fst (fst (vk i j))).
    set (mean := mean_of (fun q b => polyval V (fit (nvol x) (volume x) (fun k => freq ph q b k) (fdeg s)))). destruct (ho_values T HT) as (H1 & H2 & H3 & H4 & H5).
    assert (LF : forall q b, List.length (fit (nvol x) (volume x) (fun k => freq ph q b k) (fdeg s)) = S (fdeg s)) by (intros q b; apply SOL; auto).
    destruct (C44_grid 5 (5/100)) as (_ & GC & _). rewrite GC in Ecc. change (5 / 2)%nat with 2%nat in Ecc. subst gg cc.
    assert (G2 : grid_at (fst (fine_grid 5 (5/100))) V 2 = V) by (rewrite grid_nth by lia; simpl; ring).
    pose proof (fun ho tk g c => column ce de ph _ ho tk g c (grid_at (fst (fine_grid 5 (5/100))) V) 2%nat Ece Me Eph LF ltac:(lia)) as CO.
    rewrite G2 in CO. fold mean in CO. replace (ct (nth i tl 0)) with T by (symmetry; apply KE). fold V. rewrite G2.
    unfold zero_point_energy, thermal_energy, vibrational_free_energy.
    assert (ONE : forall a, a = 1 * a) by (intros; ring).
    split; [rewrite (ONE (fst de * _)); apply CO; intros w; rewrite <- H1; ring|].
    split; [rewrite (ONE (fst de * _)); apply CO; intros w; rewrite <- H2; ring|].
    split; [unfold Rdiv; rewrite Rmult_comm; apply CO; exact H3|].
    split; [unfold Rdiv; rewrite Rmult_comm; apply CO; exact H4|].
    split; [rewrite (ONE (fst de * _)); apply CO; intros w; rewrite <- H5; ring|].
    split; reflexivity.
Qed.

(** ** Volumes *)
(** Polynomial minimisation, both schemes: the volume is a strict local minimum of
    f(V) + p V where f is the polynomial through the harmonic free energies. *)
Lemma volume_of_poly f p v k k1 V Fe de dv dp : minimization s = "poly" ->
  (forall c, (List.length c <= Nat.max 1 (edeg s))%nat -> roots_exact roots c) -> List.length f = S (edeg s) ->
  meaning (ep_energy_units K) (lower (eunit s)) = Some de ->
  meaning (ep_volume_units K) (lower (vunit s)) = Some dv ->
  meaning pressure_units (lower (punit s)) = Some dp ->
  minimize_volume K fit roots eos_fit s x V Fe p (Some f) = Ok (v, k, k1) ->
  exists p0, p0 * fst de / fst dv = fst dp * p /\ polyval v (deriv f) = - p0 /\ strict_local_minimum (fun w => polyval w f + p0 * w) v /\ 0 < polyval v (deriv (deriv f)).
Proof.
  intros MI RO LF Me Mv Mp E. unfold minimize_volume in E.
  assert (PO : poly_on s = true) by (unfold poly_on; rewrite MI; reflexivity). rewrite PO in E.
  apply bind_ok in E as (p0 & Ep & E). cbv zeta beta iota in E.
  destruct (volume_at roots f p0) as [w|] eqn:EVA; [|discriminate]. injection E as <- _ _.
  unfold set_target_pressure in Ep. rewrite p2e_value, Me, Mv, Mp in Ep. injection Ep as <-.
  pose proof (ep_energy_pos K PK _ _ Me) as Pe. pose proof (ep_volume_pos K PK _ _ Mv) as Pv. pose proof (pressure_pos _ _ Mp) as Pp.
  set (p0 := p * fst dp * fst dv / fst de) in *.
  pose proof (slope_length f p0) as LC. rewrite LF in LC. simpl Nat.pred in LC.
  assert (IN : In w (find_polynomial_minimum roots f (Some p0))).
  { unfold volume_at in EVA. destruct (find_polynomial_minimum roots f (Some p0)); [discriminate|]. injection EVA as ->. now left. }
  destruct (proj1 (C24_returns_exactly_the_minima roots f p0 w (RO _ LC)) IN) as [SL CU]. unfold slope in SL. unfold curvature in CU.
  exists p0. split; [unfold p0; field; lra|]. split; [lra|]. split; [|exact CU]. apply (C24_strict_local_minimum roots f p0 w (RO _ LC) IN).
Qed.
Definition volume_is_minimum (f : list R) (p V : R) (de dv dp : R * R) : Prop :=
  exists p0, p0 * fst de / fst dv = fst dp * p /\ polyval V (deriv f) = - p0 /\ strict_local_minimum (fun w => polyval w f + p0 * w) V /\ 0 < polyval V (deriv (deriv f)).
Theorem C81_polynomial_volume tl pl r h de dv dp : least_squares_solver fit -> distinct (nvol x) (volume x) -> (edeg s < nvol x)%nat ->
  (forall c, (List.length c <= Nat.max 1 (edeg s))%nat -> roots_exact roots c) ->
  qha_scheme s = "td" \/ qha_scheme s = "freq" -> minimization s = "poly" -> run tl pl = Ok r -> ha tl = Ok h ->
  meaning (ep_energy_units K) (lower (eunit s)) = Some de ->
  meaning (ep_volume_units K) (lower (vunit s)) = Some dv ->
  meaning pressure_units (lower (punit s)) = Some dp ->
  forall i, (i < List.length tl)%nat -> exists f, fits (ha_F h i) f /\
    forall j, (j < List.length pl)%nat -> volume_is_minimum f (nth j pl 0) (VT r i j) de dv dp.
Proof.
  intros SOL D DE RO SC MI E HA Me Mv Mp i Hi.
  destruct (run_inv _ _ _ _ _ _ _ _ _ _ _ _ _ E) as (ct & ph & r0 & Ect & Eph & _ & Etd & Efr & Ef).
  destruct (ha_open tl h ct ph Ect Eph HA) as (ce & Ece & _ & _ & _ & _ & _ & _ & A7).
  destruct (finalize_keeps _ _ _ _ _ _ _ _ Ef) as (_ & _ & _ & _ & _ & _ & _ & -> & _).
  destruct SC as [SC|SC].
  - specialize (Etd SC). remember (fst (fine_grid 5 (5/100))) as gg eqn:Egg. remember (snd (fine_grid 5 (5/100))) as cc eqn:Ecc.
    unfold run_thermodynamics_interpolation in Etd. rewrite Ece in Etd. cbn [bind] in Etd.
    apply bind_ok in Etd as (vk & Evk & Etd). apply bind_ok in Etd as (kk & _ & Etd). injection Etd as <-. cbn [scheme_results VT].
    exists (fit (nvol x) (volume x) (fun j => (free_energy (List.length tl) (nvol x) (static_energy x) (fun i j => ce (vibrational_free_energy P (List.length tl) (fun i => ct (nth i tl 0)) ph (weight x) i j)) i j) - ct (nth i tl 0) * 0 * / 1000) (edeg s)).
    split; [apply fitted_solver; auto; intros j Hj; rewrite A7; field|]. intros j Hj.
    pose proof (table_ok _ _ _ _ _ Evk i j Hi Hj) as MV. cbv beta in MV. destruct (vk i j) as [[v k] k1]. cbn [fst].
    refine (volume_of_poly _ _ v k k1 _ _ de dv dp MI RO _ Me Mv Mp MV). apply SOL; auto.
  - specialize (Efr SC). remember (fst (fine_grid 5 (5/100))) as gg eqn:Egg. remember (snd (fine_grid 5 (5/100))) as cc eqn:Ecc.
    unfold run_frequency_interpolation in Efr. rewrite Ece in Efr. cbn [bind] in Efr.
    apply bind_ok in Efr as (vk & Evk & Efr). apply bind_ok in Efr as (kk & _ & Efr). injection Efr as <-. cbn [scheme_results VT].
    exists (fit (nvol x) (volume x) (free_energy (List.length tl) (nvol x) (static_energy x) (fun i j => ce (vibrational_free_energy P (List.length tl) (fun i => ct (nth i tl 0)) ph (weight x) i j)) i) (edeg s)).
    split; [apply fitted_solver; auto; intros j Hj; rewrite A7; reflexivity|]. intros j Hj.
    pose proof (table_ok _ _ _ _ _ Evk i j Hi Hj) as MV. cbv beta in MV. destruct (vk i j) as [[v k] k1]. cbn [fst].
    eapply (volume_of_poly _ _ v k k1 (volume x) (ha_F h i)); eauto; [apply SOL; auto|].
    rewrite <- MV. unfold minimize_volume. assert (PO : poly_on s = true) by (unfold poly_on; rewrite MI; reflexivity). rewrite PO. reflexivity.
Qed.

(** EoS minimisation, both schemes: the fitted curve minus the pressure term is
    the one closest to the harmonic free energies. *)
Definition squares (Y Z : nat -> R) : R := psum (fun k => (Y k - Z k) ^ 2) (nvol x).
Definition eos_least_squares : Prop := forall tag form n V Y e0 k0 k1 v0, set_eos_type tag = Some form -> eos_fit tag n V Y = Ok (e0, k0, k1, v0) ->
  forall a b c w, psum (fun k => (form (V k) e0 k0 k1 v0 - Y k) ^ 2) n <= psum (fun k => (form (V k) a b c w - Y k) ^ 2) n.
Theorem C81_eos_volume tl pl r h de dv dp form : eos_least_squares ->
  qha_scheme s = "td" \/ qha_scheme s = "freq" -> minimization s = "eos" -> set_eos_type (eos_function s) = Some form -> run tl pl = Ok r -> ha tl = Ok h ->
  meaning (ep_energy_units K) (lower (eunit s)) = Some de ->
  meaning (ep_volume_units K) (lower (vunit s)) = Some dv ->
  meaning pressure_units (lower (punit s)) = Some dp ->
  forall i j, (i < List.length tl)%nat -> (j < List.length pl)%nat ->
  exists p0 e0 k0, p0 * fst de / fst dv = fst dp * nth j pl 0 /\ KT r i j * fst dp = k0 * fst de / fst dv /\
    forall a b c w, squares (fun k => form (volume x k) e0 k0 (Kp r i j) (VT r i j) - p0 * volume x k) (ha_F h i) <=
                    squares (fun k => form (volume x k) a b c w - p0 * volume x k) (ha_F h i).
Proof.
  intros LSQ SC MI TF E HA Me Mv Mp i j Hi Hj.
  destruct (run_inv _ _ _ _ _ _ _ _ _ _ _ _ _ E) as (ct & ph & r0 & Ect & Eph & _ & Etd & Efr & Ef).
  destruct (ha_open tl h ct ph Ect Eph HA) as (ce & Ece & _ & _ & _ & _ & _ & _ & A7).
  destruct (finalize_keeps _ _ _ _ _ _ _ _ Ef) as (_ & _ & _ & _ & _ & _ & _ & -> & -> & -> & _).
  assert (PO : poly_on s = false) by (unfold poly_on; rewrite MI; reflexivity).
  assert (EO : eos_on s = true) by (unfold eos_on; rewrite MI; reflexivity).
  assert (EM : forall Fe pars v k k1, (forall q, (q < nvol x)%nat -> Fe q = ha_F h i q) ->
    minimize_volume K fit roots eos_fit s x (volume x) Fe (nth j pl 0) pars = Ok (v, k, k1) ->
    exists p0 e0 k0, p0 * fst de / fst dv = fst dp * nth j pl 0 /\ k * fst dp = k0 * fst de / fst dv /\
    forall a b c w, squares (fun k => form (volume x k) e0 k0 k1 v - p0 * volume x k) (ha_F h i) <=
                    squares (fun k => form (volume x k) a b c w - p0 * volume x k) (ha_F h i)).
  { intros Fe pars v k k1 EF M. unfold minimize_volume in M. rewrite PO, EO in M.
    apply bind_ok in M as ((((e0 & k0) & k1') & v0) & E1 & M). apply bind_ok in M as (kp & E2 & M). injection M as <- <- <-.
    unfold find_eos_minimum in E1. apply bind_ok in E1 as (p0 & Ep & E1).
    unfold set_target_pressure in Ep. rewrite p2e_value, Me, Mv, Mp in Ep. injection Ep as <-.
    unfold e2p in E2. rewrite e2p_value, Me, Mv, Mp in E2. injection E2 as <-.
    pose proof (ep_energy_pos K PK _ _ Me) as Pe. pose proof (ep_volume_pos K PK _ _ Mv) as Pv. pose proof (pressure_pos _ _ Mp) as Pp.
    set (p0 := nth j pl 0 * fst dp * fst dv / fst de) in *. exists p0, e0, k0.
    split; [unfold p0; field; lra|]. split; [field; lra|]. intros a b c w. pose proof (LSQ _ _ _ _ _ _ _ _ _ TF E1 a b c w) as L. unfold squares.
    match type of L with ?A <= ?B => match goal with |- ?A' <= ?B' => replace A' with A; [replace B' with B; [exact L|]|] end end;
      apply psum_ext; intros q Hq; cbv beta; rewrite EF by exact Hq; ring. }
  destruct SC as [SC|SC].
  - specialize (Etd SC). remember (fst (fine_grid 5 (5/100))) as gg eqn:Egg. remember (snd (fine_grid 5 (5/100))) as cc eqn:Ecc.
    unfold run_thermodynamics_interpolation in Etd. rewrite Ece in Etd. cbn [bind] in Etd.
    apply bind_ok in Etd as (vk & Evk & Etd). rewrite PO in Etd. cbn [bind] in Etd. injection Etd as <-. cbn [scheme_results VT KT Kp fst snd].
    pose proof (table_ok _ _ _ _ _ Evk i j Hi Hj) as MV. cbv beta in MV. destruct (vk i j) as [[v k] k1]. cbn [fst snd].
    eapply EM; [|exact MV]. intros q Hq. rewrite A7. cbv beta. field.
  - specialize (Efr SC). remember (fst (fine_grid 5 (5/100))) as gg eqn:Egg. remember (snd (fine_grid 5 (5/100))) as cc eqn:Ecc.
    unfold run_frequency_interpolation in Efr. rewrite Ece in Efr. cbn [bind] in Efr.
    apply bind_ok in Efr as (vk & Evk & Efr). rewrite PO in Efr. cbn [bind] in Efr. injection Efr as <-. cbn [scheme_results VT KT Kp fst snd].
    pose proof (table_ok _ _ _ _ _ Evk i j Hi Hj) as MV. cbv beta in MV. destruct (vk i j) as [[v k] k1]. cbn [fst snd].
    eapply EM; [|exact MV]. intros q Hq. rewrite A7. reflexivity.
Qed.

(** ** Bulk modulus of polynomial runs *)
Lemma near_grid V k : (k < 5)%nat -> grid_at (fst (fine_grid 5 (5/100))) V k = near V k.
Proof. intros H. now rewrite grid_nth. Qed.
Lemma near_distinct V : V <> 0 -> distinct 5 (near V).
Proof. intros H a b A B E. apply (grid_distinct V H); auto. now rewrite !near_grid. Qed.
Lemma numerical_moduli V Fe Fg kt kp de dv dp : least_squares_solver fit -> V <> 0 -> (edeg s < 5)%nat ->
  meaning (ep_energy_units K) (lower (eunit s)) = Some de ->
  meaning (ep_volume_units K) (lower (vunit s)) = Some dv ->
  meaning pressure_units (lower (punit s)) = Some dp ->
  numerical_bulk_modulus K fit s 5 (grid_at (fst (fine_grid 5 (5/100))) V) Fe 2 = Ok (kt, kp) ->
  (forall k, (k < 5)%nat -> Fe k = Fg (near V k)) -> moduli_from Fg (edeg s) (fst de / fst dv / fst dp) V kt kp.
Proof.
  intros SOL NZ D5 Me Mv Mp E EF. unfold numerical_bulk_modulus in E. apply bind_ok in E as (cv & Ecv & E).
  destruct (e2p_scale K s cv Ecv) as (de' & dv' & dp' & M1 & M2 & M3 & SC).
  rewrite Me in M1. injection M1 as <-. rewrite Mv in M2. injection M2 as <-. rewrite Mp in M3. injection M3 as <-.
  assert (INJ : forall a b c d : R, Ok (a, b) = Ok (c, d) -> c = a /\ d = b) by (intros a b c d Q; injection Q; auto).
  apply INJ in E as (E1 & E2). subst kt kp.
  set (u := fst de / fst dv / fst dp).
  assert (SC' : forall e, cv e = u * e) by (intros e; rewrite SC; unfold u, Rdiv; ring).
  set (g := fit 5%nat (grid_at (fst (fine_grid 5 (5/100))) V) Fe (edeg s)).
  exists g. split; [apply fitted_solver_at; auto; [apply grid_distinct; exact NZ|apply near_grid]|].
  assert (PB : forall k, (k < 5)%nat -> - cv (polyval (grid_at (fst (fine_grid 5 (5/100))) V k) (deriv g)) = - (u * polyval (near V k) (deriv g)) /\
    cv (grid_at (fst (fine_grid 5 (5/100))) V k * polyval (grid_at (fst (fine_grid 5 (5/100))) V k) (deriv (deriv g))) = u * (near V k * polyval (near V k) (deriv (deriv g)))).
  { intros k Hk5. rewrite !SC', !near_grid by exact Hk5. split; reflexivity. }
  cbv zeta. split; [apply PB; lia|]. intros DI.
  eexists. split; [|rewrite <- (proj1 (PB 2%nat ltac:(lia))); reflexivity].
  apply fitted_solver_at; auto; try (intros k Hk5; apply PB; exact Hk5).
  intros a b Ha Hb Q. apply DI; auto. destruct (PB a Ha) as (<- & _). destruct (PB b Hb) as (<- & _). exact Q.
Qed.
Theorem C81_thermodynamic_moduli tl pl r h de dv dp : least_squares_solver fit -> distinct (nvol x) (volume x) -> (edeg s < nvol x)%nat -> (edeg s < 5)%nat ->
  qha_scheme s = "td" -> minimization s = "poly" -> run tl pl = Ok r -> ha tl = Ok h ->
  meaning (ep_energy_units K) (lower (eunit s)) = Some de ->
  meaning (ep_volume_units K) (lower (vunit s)) = Some dv ->
  meaning pressure_units (lower (punit s)) = Some dp ->
  forall i, (i < List.length tl)%nat -> exists f, fits (ha_F h i) f /\
  forall j, (j < List.length pl)%nat -> VT r i j <> 0 -> moduli_from (fun w => polyval w f) (edeg s) (fst de / fst dv / fst dp) (VT r i j) (KT r i j) (Kp r i j).
Proof.
  intros SOL D DE D5 SC MI E HA Me Mv Mp i Hi.
  destruct (run_inv _ _ _ _ _ _ _ _ _ _ _ _ _ E) as (ct & ph & r0 & Ect & Eph & _ & Etd & _ & Ef).
  destruct (ha_open tl h ct ph Ect Eph HA) as (ce & Ece & _ & _ & _ & _ & _ & _ & A7).
  destruct (finalize_keeps _ _ _ _ _ _ _ _ Ef) as (_ & _ & _ & _ & _ & _ & _ & -> & -> & -> & _).
  assert (PO : poly_on s = true) by (unfold poly_on; rewrite MI; reflexivity).
  specialize (Etd SC). destruct (C44_grid 5 (5/100)) as (GL & GC & _). rewrite GC in Etd. change (5 / 2)%nat with 2%nat in Etd.
  remember (fst (fine_grid 5 (5/100))) as gg eqn:Egg.
  unfold run_thermodynamics_interpolation in Etd. rewrite Ece in Etd. cbn [bind] in Etd.
  apply bind_ok in Etd as (vk & Evk & Etd). rewrite PO in Etd. apply bind_ok in Etd as (kk & Ekk & Etd). injection Etd as <-. cbn [scheme_results VT KT Kp].
  exists (fit (nvol x) (volume x) (fun j => (free_energy (List.length tl) (nvol x) (static_energy x) (fun i j => ce (vibrational_free_energy P (List.length tl) (fun i => ct (nth i tl 0)) ph (weight x) i j)) i j) - ct (nth i tl 0) * 0 * / 1000) (edeg s)).
  split; [apply fitted_solver; auto; intros j Hj; rewrite A7; field|]. intros j Hj NZ.
  pose proof (table_ok _ _ _ _ _ Ekk i j Hi Hj) as NB. cbv beta in NB. rewrite GL in NB. destruct (kk i j) as [kt kp]. cbn [fst snd]. rewrite Egg in NB.
  eapply numerical_moduli; eauto. intros k Hk5. cbv beta. rewrite near_grid by exact Hk5. reflexivity.
Qed.
Theorem C81_frequency_moduli tl pl r d (de df : R * R) de' dv dp : least_squares_solver fit -> distinct (nvol x) (volume x) -> (edeg s < nvol x)%nat -> (fdeg s < nvol x)%nat -> (edeg s < 5)%nat ->
  qha_scheme s = "freq" -> minimization s = "poly" -> run tl pl = Ok r ->
  meaning temperature_units (lower (tunit s)) = Some d -> meaning (energy_units K) (lower (eunit s)) = Some de -> meaning (frequency_units K) (lower (funit s)) = Some df ->
  meaning (ep_energy_units K) (lower (eunit s)) = Some de' ->
  meaning (ep_volume_units K) (lower (vunit s)) = Some dv ->
  meaning pressure_units (lower (punit s)) = Some dp ->
  exists e fp, frequency_fits df e fp /\
  forall i j, (i < List.length tl)%nat -> (j < List.length pl)%nat -> 0 < si d (nth i tl 0) -> VT r i j <> 0 ->
    moduli_from (frequency_free_energy de (si d (nth i tl 0)) e fp) (edeg s) (fst de' / fst dv / fst dp) (VT r i j) (KT r i j) (Kp r i j).
Proof.
  intros SOL D DE DF D5 SC MI E Mt Me Mf Me' Mv Mp.
  destruct (run_inv _ _ _ _ _ _ _ _ _ _ _ _ _ E) as (ct & ph & r0 & Ect & Eph & _ & _ & Efr & Ef).
  destruct (finalize_keeps _ _ _ _ _ _ _ _ Ef) as (_ & _ & _ & _ & _ & _ & _ & -> & -> & -> & _).
  destruct (kelvin s ct Ect) as (d' & Md & KE). rewrite Mt in Md. injection Md as <-.
  assert (PO : poly_on s = true) by (unfold poly_on; rewrite MI; reflexivity).
  specialize (Efr SC). destruct (C44_grid 5 (5/100)) as (GL & GC & _). rewrite GC in Efr. change (5 / 2)%nat with 2%nat in Efr.
  remember (fst (fine_grid 5 (5/100))) as gg eqn:Egg.
  unfold run_frequency_interpolation in Efr. apply bind_ok in Efr as (ce & Ece & Efr).
  apply bind_ok in Efr as (vk & Evk & Efr). rewrite PO in Efr. apply bind_ok in Efr as (kk & Ekk & Efr). injection Efr as <-. cbn [scheme_results VT KT Kp].
  exists (fit (nvol x) (volume x) (static_energy x) (edeg s)), (fun q b => fit (nvol x) (volume x) (fun k => freq ph q b k) (fdeg s)).
  split; [split|].
  - apply fitted_solver; auto.
  - intros q b. apply fitted_solver; auto. intros k _. now apply phonons_value.
  - intros i j Hi Hj HT NZ. pose proof (table_ok _ _ _ _ _ Ekk i j Hi Hj) as NB. cbv beta in NB. rewrite GL in NB. destruct (kk i j) as [kt kp]. cbn [fst snd]. subst gg.
    eapply numerical_moduli; eauto. intros k Hk5. cbv beta. unfold frequency_free_energy. rewrite near_grid by exact Hk5. f_equal.
    destruct (ho_values (si d (nth i tl 0)) HT) as (_ & _ & _ & _ & H5).
    assert (LF : forall q b, List.length (fit (nvol x) (volume x) (fun k => freq ph q b k) (fdeg s)) = S (fdeg s)) by (intros q b; apply SOL; auto).
    pose proof (column ce de ph _ (ho_F P) (si d (nth i tl 0)) (oscillator_free (si d (nth i tl 0))) 1 (grid_at (fst (fine_grid 5 (5/100))) (fst (fst (vk i j)))) k Ece Me Eph LF Hk5
      ltac:(intros w; rewrite <- H5; ring)) as CO.
    rewrite near_grid in CO by exact Hk5. rewrite <- CO. unfold vibrational_free_energy. rewrite KE. pose proof (energy_pos K PK _ _ Me). field. lra.
Qed.
(** A free energy that is quadratic in the volume always gives K' = -1. *)
Theorem C81_parabola_refuted tl pl r h de dv dp : least_squares_solver fit -> distinct (nvol x) (volume x) -> (2 < nvol x)%nat -> edeg s = 2%nat ->
  (forall c, (List.length c <= 2)%nat -> roots_exact roots c) ->
  qha_scheme s = "td" -> minimization s = "poly" -> run tl pl = Ok r -> ha tl = Ok h ->
  meaning (ep_energy_units K) (lower (eunit s)) = Some de ->
  meaning (ep_volume_units K) (lower (vunit s)) = Some dv ->
  meaning pressure_units (lower (punit s)) = Some dp ->
  forall i j, (i < List.length tl)%nat -> (j < List.length pl)%nat -> VT r i j <> 0 -> Kp r i j = -1.
Proof.
  intros SOL D N ED RO SC MI E HA Me Mv Mp i j Hi Hj NZ.
  destruct (C81_thermodynamic_moduli tl pl r h de dv dp) with (i := i) as (f & Ff & M); auto; try (rewrite ED; lia).
  destruct (C81_polynomial_volume tl pl r h de dv dp) with (i := i) as (f' & Ff' & VM); auto; try (rewrite ED; lia); [rewrite ED; exact RO|].
  specialize (M j Hj NZ). destruct (VM j Hj) as (p0 & _ & _ & _ & CU). destruct M as (g & Fg & _ & KP). cbv zeta in KP. rewrite ED in *.
  set (V := VT r i j) in *. pose proof (fitted_unique _ _ _ _ _ _ D N Ff Ff') as U.
  assert (UG : forall w, polyval w g = polyval w f) by (apply (fitted_exact 5 (near V) _ 2 g f (near_distinct V NZ) ltac:(lia) Fg); [destruct Ff; lia|reflexivity]).
  destruct Ff as (Lf & _). destruct f as [|a [|b [|c [|]]]]; try discriminate Lf.
  pose proof (deriv_ext _ _ UG) as U1. pose proof (deriv_ext _ _ U1) as U2. rewrite <- (deriv_ext _ _ (deriv_ext _ _ U)) in CU. cbn in CU.
  pose proof (ep_energy_pos K PK _ _ Me) as Pe. pose proof (ep_volume_pos K PK _ _ Mv) as Pv. pose proof (pressure_pos _ _ Mp) as Pp.
  set (u := fst de / fst dv / fst dp) in *. assert (PU : 0 < u) by (unfold u; repeat apply Rdiv_lt_0_compat; auto).
  assert (D1 : forall w, polyval w (deriv g) = b + 2 * c * w) by (intros w; rewrite U1; cbn; ring).
  assert (D2 : forall w, polyval w (deriv (deriv g)) = 2 * c) by (intros w; rewrite U2; cbn; ring).
  assert (PC : 0 < c) by lra.
  destruct KP as (q & Fq & ->).
  { intros k l Hk5 Hl Q. apply (near_distinct V NZ); auto. rewrite !D1 in Q. apply Ropp_eq_compat in Q. rewrite !Ropp_involutive in Q.
    apply Rmult_eq_reg_l in Q; [|lra]. apply Rmult_eq_reg_l with (2 * c); lra. }
  assert (UQ : forall w, polyval w q = polyval w [- (u * b); -1]).
  { apply (fitted_exact 5 _ _ 2 q [- (u * b); -1]) with (3 := Fq); [|lia|cbn; lia|].
    - intros k l Hk5 Hl Q. apply (near_distinct V NZ); auto. rewrite !D1 in Q. apply Ropp_eq_compat in Q. rewrite !Ropp_involutive in Q.
      apply Rmult_eq_reg_l in Q; [|lra]. apply Rmult_eq_reg_l with (2 * c); lra.
    - intros k Hk5. rewrite D1, D2. cbn [polyval]. ring. }
  rewrite (deriv_ext _ _ UQ). cbn. ring.
Qed.
End Run.

(** ** Instances: the parabola of QhaEqProps (degree 2, one mode), and an input on a Birch-Murnaghan curve *)
Lemma sys_ha scheme minim : exists h, ha_run codata (6/10^34) (1/10^23) (sys_settings scheme minim) sys_input sys_T = Ok h.
Proof. apply (C73_harmonic_completes codata (6/10^34) (1/10^23) codata_positive (sys_settings scheme minim) sys_input sys_T (sys_offered _ _)). Qed.
Lemma sys_free_energy scheme minim h : ha_run codata (6/10^34) (1/10^23) (sys_settings scheme minim) sys_input sys_T = Ok h ->
  forall i, (i < 60)%nat -> exists C, forall k, (k < 4)%nat -> ha_F h i k = polyval (10 + INR k) [121 + C; -22; 1].
Proof.
  intros EH i Hi. destruct (ha_inv _ _ _ _ _ _ _ EH) as (d & ct & ph & ce & _ & _ & Eph & _ & _ & _ & _ & _ & FV & _ & FF).
  exists (ha_Fvib h i 0%nat). intros k Hk4. rewrite FF by (unfold sys_T; rewrite ?map_length, ?seq_length; assumption).
  replace (ha_Fvib h i k) with (ha_Fvib h i 0%nat); [cbn [static_energy sys_input polyval]; ring|].
  rewrite !FV. f_equal. unfold vibrational_free_energy. unfold phonons_Hz in Eph. apply bind_ok in Eph as (cf & _ & Eph).
  assert (Q : forall a b : bands, Ok a = Ok b -> b = a) by congruence. rewrite (Q _ _ Eph).
  rewrite !band_loop_sum by (simpl nv; unfold sys_T; rewrite ?map_length, ?seq_length; assumption || lia). reflexivity.
Qed.
Example C81_instance : exists r h, sys_run "td" "poly" sys_T sys_P = Ok r /\
  ha_run codata (6/10^34) (1/10^23) (sys_settings "td" "poly") sys_input sys_T = Ok h /\ VT r 5%nat 0%nat = 11 /\ Kp r 5%nat 0%nat = -1 /\
  F r 5%nat 0%nat = ha_F h 5%nat 1%nat.
Proof.
  destruct (C73_instance "td" "poly" (or_introl eq_refl)) as [r E]. destruct (sys_ha "td" "poly") as [h EH]. exists r, h.
  split; [exact E|]. split; [exact EH|]. destruct (sys_free_energy _ _ _ EH 5%nat ltac:(lia)) as (C & FC).
  pose proof (C81_polynomial_volume codata _ _ codata_positive _ _ _ _ _ (sys_settings "td" "poly") sys_input sys_T sys_P r h _ _ _
    gram_schmidt_solver (proj2 sys_consistent) ltac:(simpl; lia) (fun c L => linear_roots_exact c L) (or_introl eq_refl) eq_refl E EH eq_refl eq_refl eq_refl 5%nat ltac:(simpl; lia)) as (f & Ff & VM).
  pose proof (fitted_exact 4 (volume sys_input) _ 2 _ [121 + C; -22; 1] (proj2 sys_consistent) ltac:(simpl; lia) Ff ltac:(simpl; lia) FC) as X.
  assert (V11 : VT r 5%nat 0%nat = 11).
  { destruct (VM 0%nat ltac:(simpl; lia)) as (p0 & HP & SL & _). rewrite (deriv_ext _ _ X) in SL. cbn in SL. cbn [nth sys_P] in HP. rewrite Rmult_0_r in HP.
    apply Rmult_integral in HP as [HP|HP]; [apply Rmult_integral in HP as [HP|HP]|].
    - lra.
    - exfalso. cbn in HP. pose proof codata_positive as PC. assert (0 < Ha_J codata) by apply PC. lra.
    - exfalso. cbn in HP. revert HP. apply Rinv_neq_0_compat. lra. }
  split; [exact V11|]. split.
  - apply (C81_parabola_refuted codata _ _ codata_positive _ _ _ _ _ (sys_settings "td" "poly") sys_input sys_T sys_P r h _ _ _
      gram_schmidt_solver (proj2 sys_consistent) ltac:(simpl; lia) eq_refl (fun c L => linear_roots_exact c L) eq_refl eq_refl E EH eq_refl eq_refl eq_refl 5%nat 0%nat ltac:(simpl; lia) ltac:(simpl; lia)).
    rewrite V11. lra.
  - destruct (C81_thermodynamic_columns codata _ _ _ _ _ _ _ (sys_settings "td" "poly") sys_input sys_T sys_P r h
      gram_schmidt_solver (proj2 sys_consistent) ltac:(simpl; lia) eq_refl E EH) as (_ & Q). destruct (Q 5%nat) as (a1 & a2 & a3 & ff & a5 & a6 & _ & _ & _ & Fff & _ & _ & VV).
    destruct (VV 0%nat) as (_ & _ & _ & -> & _). rewrite V11.
    rewrite (fitted_exact 4 (volume sys_input) _ 2 _ [121 + C; -22; 1] (proj2 sys_consistent) ltac:(simpl; lia) Fff ltac:(simpl; lia) FC). rewrite FC by lia. cbn. ring.
Qed.
(** every fitted frequency is the one of the input, 100 cm^-1 *)
Example C81_frequency_instance : exists r, sys_run "freq" "poly" sys_T sys_P = Ok r /\
  Ha_J codata * Uth r 5%nat 1%nat = oscillator_energy (6/10^34) (1/10^23) 50 (100 * (100 * c_ms codata)).
Proof.
  destruct (C73_instance "freq" "poly" (or_introl eq_refl)) as [r E]. exists r. split; [exact E|]. destruct sys_positive as [P1 P2].
  destruct (C81_frequency_columns codata _ _ codata_positive P1 P2 _ _ _ (fun _ _ => 0) (fun _ _ => 0) (sys_settings "freq" "poly") sys_input sys_T sys_P r (1, 0) (Ha_J codata, 0) (100 * c_ms codata, 0)
    gram_schmidt_solver (proj2 sys_consistent) ltac:(simpl; lia) ltac:(simpl; lia) eq_refl E eq_refl eq_refl eq_refl) as (e & fp & (_ & FF) & Q).
  assert (T5 : si (1, 0) (nth 5 sys_T 0) = 50) by (unfold si, sys_T; simpl; lra).
  destruct (Q 5%nat 1%nat ltac:(rewrite T5; lra)) as (_ & QU & _). cbv zeta in QU. rewrite T5 in QU. cbn [fst] in QU. rewrite QU.
  assert (X : forall v, polyval v (fp 0%nat 0%nat) = polyval v [100 * (100 * c_ms codata)]).
  { apply (fitted_exact 4 (volume sys_input) _ 1 _ _ (proj2 sys_consistent) ltac:(simpl; lia) (FF 0%nat 0%nat)); [simpl; lia|]. intros k _. cbn. unfold si. cbn. ring. }
  unfold mean_of. cbn [nb nf frequencies sys_input weights total_q_points Rsum]. rewrite X. cbn [polyval]. unfold counted.
  destruct (Rle_dec _ 0) as [L|L]; [|field].
  exfalso. assert (0 < c_ms codata) by apply codata_positive. lra.
Qed.
(** a fitter that accepts data on one family of curves only *)
Definition bm_fit (tag : string) (n : nat) (V Y : nat -> R) : outcome (R * R * R * R) :=
  let c := Y 0%nat - ev_birchmurnaghan (V 0%nat) 0 1 4 11 in
  if (String.eqb tag "birchmurnaghan" && forallb (fun k => Req_b (ev_birchmurnaghan (V k) c 1 4 11) (Y k)) (seq 0 n))%bool then Ok (c, 1, 4, 11) else Raises "RuntimeError".
Lemma bm_least_squares : eos_least_squares bm_fit.
Proof.
  intros tag form n V Y e0 k0 k1 v0 TF E a b c w. unfold bm_fit in E. cbv zeta in E.
  destruct (String.eqb tag "birchmurnaghan") eqn:ET; [|discriminate]. apply String.eqb_eq in ET. subst tag. cbn in TF. injection TF as <-.
  cbn [andb] in E. destruct (forallb _ _) eqn:FB; [|discriminate]. injection E as <- <- <- <-. rewrite forallb_forall in FB.
  rewrite (psum_ext _ (fun _ => 0)).
  - rewrite psum_0. clear FB. induction n; cbn [psum]; [lra|]. pose proof (pow2_ge_0 (ev_birchmurnaghan (V n) a b c w - Y n)). lra.
  - intros k Hk. specialize (FB k ltac:(apply in_seq; lia)). apply Req_b_true in FB. rewrite FB. ring.
Qed.
Definition bm_input : input :=
  {| nvol := 4; volume := fun k => 10 + INR k; static_energy := fun k => ev_birchmurnaghan (10 + INR k) 0 1 4 11;
     frequencies := {| nb := 1; nf := 1; nv := 4; freq := fun _ _ _ => 100 |}; weights := fun _ => 1; total_q_points := 1 |}.
Example C81_eos_instance : exists r h,
  QhaRunModel.run codata (6/10^34) (1/10^23) gram_schmidt_fit linear_roots bm_fit (fun _ _ => 0) (fun _ _ => 0) (sys_settings "td" "eos") bm_input sys_T [0] = Ok r /\
  ha_run codata (6/10^34) (1/10^23) (sys_settings "td" "eos") bm_input sys_T = Ok h /\
  exists p0 e0 k0, p0 * Ha_J codata / Angstrom_m codata ^ 3 = 10 ^ 9 * 0 /\
  forall a b c w, squares bm_input (fun k => ev_birchmurnaghan (volume bm_input k) e0 k0 (Kp r 5%nat 0%nat) (VT r 5%nat 0%nat) - p0 * volume bm_input k) (ha_F h 5%nat) <=
                  squares bm_input (fun k => ev_birchmurnaghan (volume bm_input k) a b c w - p0 * volume bm_input k) (ha_F h 5%nat).
Proof.
  destruct (C73_run_completes codata (6/10^34) (1/10^23) codata_positive gram_schmidt_fit linear_roots bm_fit (fun _ _ => 0) (fun _ _ => 0) (sys_settings "td" "eos") bm_input sys_T [0]) as [r E].
  - apply sys_offered.
  - reflexivity.
  - left. split; [reflexivity|]. intros h p0 EH i j Hi Hj EP Y EY.
    assert (Z : p0 = 0).
    { rewrite p2e_value in EP. cbn in EP. destruct j as [|j]; [|simpl in Hj; lia]. injection EP as <-. unfold Rdiv. ring. }
    destruct (ha_inv _ _ _ _ _ _ _ EH) as (d & ct & ph & ce & _ & _ & Eph & _ & _ & _ & _ & _ & FV & _ & FF).
    assert (CN : forall k, (k < 4)%nat -> ha_Fvib h i k = ha_Fvib h i 0%nat).
    { intros k Hk4. rewrite !FV. f_equal. unfold vibrational_free_energy. unfold phonons_Hz in Eph. apply bind_ok in Eph as (cf & _ & Eph).
      assert (Q : forall a b : bands, Ok a = Ok b -> b = a) by congruence. rewrite (Q _ _ Eph).
      rewrite !band_loop_sum by (simpl nv; assumption || lia). reflexivity. }
    set (C := ha_Fvib h i 0%nat) in *.
    assert (SH : forall v c, ev_birchmurnaghan v c 1 4 11 = c + ev_birchmurnaghan v 0 1 4 11) by (intros; unfold ev_birchmurnaghan; ring).
    assert (YV : forall k, (k < 4)%nat -> Y k = C + ev_birchmurnaghan (10 + INR k) 0 1 4 11).
    { intros k Hk4. rewrite EY by exact Hk4. rewrite FF by assumption. rewrite CN by exact Hk4. rewrite Z. cbn [static_energy bm_input]. ring. }
    exists (C, 1, 4, 11). unfold bm_fit. cbn [eos_function sys_settings]. rewrite (YV 0%nat) by lia. cbn [volume bm_input nvol].
    replace (C + ev_birchmurnaghan (10 + INR 0) 0 1 4 11 - ev_birchmurnaghan (10 + INR 0) 0 1 4 11) with C by ring.
    replace (forallb _ _) with true; [reflexivity|]. symmetry. apply forallb_forall. intros k Ik. apply in_seq in Ik. rewrite YV by lia. rewrite SH.
    unfold Req_b. destruct (Req_EM_T _ _); [reflexivity|congruence].
  - destruct (C73_harmonic_completes codata (6/10^34) (1/10^23) codata_positive (sys_settings "td" "eos") bm_input sys_T (sys_offered _ _)) as [h EH].
    exists r, h. split; [exact E|]. split; [exact EH|].
    destruct (C81_eos_volume codata (6/10^34) (1/10^23) codata_positive gram_schmidt_fit linear_roots bm_fit (fun _ _ => 0) (fun _ _ => 0) (sys_settings "td" "eos") bm_input sys_T [0] r h _ _ _ _ bm_least_squares
      (or_introl eq_refl) eq_refl eq_refl E EH eq_refl eq_refl eq_refl 5%nat 0%nat ltac:(simpl; lia) ltac:(simpl; lia)) as (p0 & e0 & k0 & HP & _ & LS).
    exists p0, e0, k0. split; [exact HP|exact LS].
Qed.

Print Assumptions C81_thermodynamic_columns.
Print Assumptions C81_frequency_columns.
Print Assumptions C81_polynomial_volume.
Print Assumptions C81_eos_volume.
Print Assumptions C81_thermodynamic_moduli.
Print Assumptions C81_frequency_moduli.
Print Assumptions C81_parabola_refuted.
