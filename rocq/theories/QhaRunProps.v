(** C45-C47, C69-C71: tables produced by a quasi-harmonic or harmonic run. *)
From Coq Require Import Reals String List Bool Arith Lia Lra.
From Verif Require Import Py ParModel StatMechModel StatMechSpec StatMechProofs StatMechProps ThermoModel ThermoProps
  UnitsModel UnitsSpec UnitsProofs UnitsProps PolyModel PolyProps PolyfitProofs GridModel GridProps QhaRunModel.
Import ListNotations.
Open Scope string_scope.
Open Scope list_scope.
Open Scope R_scope.

(** ** Plumbing *)
Lemma bind_ok {A B} (a : outcome A) (f : A -> outcome B) b : bind a f = Ok b -> exists v, a = Ok v /\ f v = Ok b.
Proof. destruct a; simpl; [eauto|discriminate]. Qed.
Lemma first_error_none {A} (l : list (outcome A)) : first_error l = None -> forall o, In o l -> exists a, o = Ok a.
Proof.
  induction l as [|[a|e] l IH]; simpl; intros E o I; [destruct I| |discriminate].
  destruct I as [<-|I]; eauto.
Qed.
Lemma table_ok {A} (d : A) n m f M : table d n m f = Ok M ->
  forall i j, (i < n)%nat -> (j < m)%nat -> f i j = Ok (M i j).
Proof.
  unfold table. destruct (first_error _) eqn:E; [discriminate|]. intros H i j Hi Hj. injection H as <-.
  destruct (first_error_none _ E (f i j)) as [a Ea].
  - apply in_flat_map. exists i. split; [apply in_seq; lia|]. apply in_map, in_seq. lia.
  - now rewrite Ea.
Qed.
(** A conversion between units of a table without offsets is a scaling. *)
Lemma conversion_scale t conv u v c :
  converts t conv -> positive_table t -> (forall n d, meaning t n = Some d -> snd d = 0) ->
  conversion (fun e => conv e u v) = Ok c ->
  exists du dv, meaning t (lower u) = Some du /\ meaning t (lower v) = Some dv /\
    0 < fst du /\ 0 < fst dv /\ (forall e, c e = fst du / fst dv * e).
Proof.
  intros C PT Z H. unfold conversion in H. destruct (conv 0 u v) as [y0|] eqn:E0; [|discriminate].
  injection H as <-. destruct (conv_some t conv C 0 u v y0 E0) as (du & dv & E1 & E2 & _).
  exists du, dv. pose proof (PT _ _ E1). pose proof (PT _ _ E2). repeat split; auto.
  intros e. destruct (conv_compute t conv C e u v du dv E1 E2) as (y & E & S). rewrite E.
  unfold si in S. rewrite (Z _ _ E1), (Z _ _ E2) in S. field_simplify_eq; lra.
Qed.
Lemma conversion_si t conv u v c :
  converts t conv -> conversion (fun e => conv e u v) = Ok c ->
  exists du dv, meaning t (lower u) = Some du /\ meaning t (lower v) = Some dv /\ forall e, si dv (c e) = si du e.
Proof.
  intros C H. unfold conversion in H. destruct (conv 0 u v) as [y0|] eqn:E0; [|discriminate].
  injection H as <-. destruct (conv_some t conv C 0 u v y0 E0) as (du & dv & E1 & E2 & _).
  exists du, dv. repeat split; auto. intros e.
  destruct (conv_compute t conv C e u v du dv E1 E2) as (y & E & S). now rewrite E.
Qed.

Section Run.
Variable K : constants.
Variables hplanck kboltzmann : R.
Hypothesis PK : positive_constants K.
Hypotheses (Hh : 0 < hplanck) (Hk : 0 < kboltzmann).
Variable fit : fit_function.
Variable roots : list R -> list (R * R).
Variable eos_fit : string -> nat -> (nat -> R) -> (nat -> R) -> outcome (R * R * R * R).
Variables kieffer_Cv kieffer_S : nat -> R -> R.
Variable s : settings.
Variable x : input.
Notation P := (P K hplanck kboltzmann).
Notation run := (run K hplanck kboltzmann fit roots eos_fit kieffer_Cv kieffer_S s x).
Notation td := (run_thermodynamics_interpolation K hplanck kboltzmann fit roots eos_fit kieffer_Cv kieffer_S s x).
Notation fr := (run_frequency_interpolation K hplanck kboltzmann fit roots eos_fit s x).
Notation finalize := (finalize_run K s).

Lemma phys_ok : physical P.
Proof. destruct PK as (A & _). unfold physical, QhaRunModel.P; simpl. lra. Qed.

(** The reader's arrays have matching shapes and the volumes are different. *)
Definition consistent : Prop := nv (frequencies x) = nvol x /\ distinct (nvol x) (volume x).

Lemma energy_scale u v c : conversion (fun e => convert_energy K e u v) = Ok c ->
  exists du dv, meaning (energy_units K) (lower u) = Some du /\ meaning (energy_units K) (lower v) = Some dv /\
    0 < fst du /\ 0 < fst dv /\ (forall e, c e = fst du / fst dv * e).
Proof. apply conversion_scale; [apply energy_converts, PK|apply energy_pos, PK|apply energy_zero]. Qed.

(** Scheme independent: what run does to the scheme's tables. *)
Lemma run_inv tl pl r : run tl pl = Ok r ->
  exists ct ph r0,
    conversion (fun t => convert_temperature t (tunit s) "K") = Ok ct /\
    phonons_Hz K s x = Ok ph /\ kieffer_on s = false /\
    (let T i := ct (nth i tl 0) in let p j := nth j pl 0 in
     let g := fst (fine_grid 5 (5/100)) in let c := snd (fine_grid 5 (5/100)) in
     (qha_scheme s = "td" -> td (List.length tl) (List.length pl) T p g c ph false = Ok r0) /\
     (qha_scheme s = "freq" -> fr (List.length tl) (List.length pl) T p g c ph = Ok r0) /\
     finalize (List.length tl) (List.length pl) T p r0 = Ok r).
Proof.
  unfold QhaRunModel.run. intros E. apply bind_ok in E as (ct & Ect & E).
  destruct (fine_grid 5 (5 / 100)) as [g c] eqn:Eg. apply bind_ok in E as (ph & Eph & E).
  destruct (kieffer_on s) eqn:Ek; [discriminate|]. apply bind_ok in E as (r0 & E0 & E).
  exists ct, ph, r0. repeat split; auto; cbn [fst snd].
  - intros S. rewrite S in E0. exact E0.
  - intros S. rewrite S in E0. exact E0.
Qed.
Lemma finalize_keeps nt np T p r0 r : finalize nt np T p r0 = Ok r ->
  Uzp r = Uzp r0 /\ Uth r = Uth r0 /\ Utot r = Utot r0 /\ Ent r = Ent r0 /\ F r = F r0 /\ Fvib r = Fvib r0 /\
  Cv r = Cv r0 /\ VT r = VT r0 /\ KT r = KT r0 /\ Kp r = Kp r0 /\
  set_enthalpy K s nt np p r0 = Ok (H r) /\ set_gibbs_free_energy K s nt np p r0 = Ok (G r).
Proof.
  unfold finalize_run. intros E. apply bind_ok in E as (h & Eh & E). apply bind_ok in E as (g & Eg & E).
  destruct (nt <? 50)%nat.
  - injection E as <-. simpl. repeat split; auto.
  - do 5 (apply bind_ok in E as (? & _ & E)). injection E as <-. simpl. repeat split; auto.
Qed.
Lemma phonons_shape ph : phonons_Hz K s x = Ok ph ->
  nb ph = nb (frequencies x) /\ nf ph = nf (frequencies x) /\ nv ph = nv (frequencies x).
Proof. unfold phonons_Hz. intros E. apply bind_ok in E as (cf & _ & E). injection E as <-. auto. Qed.
Lemma kelvin ct : conversion (fun t => convert_temperature t (tunit s) "K") = Ok ct ->
  exists d, meaning temperature_units (lower (tunit s)) = Some d /\ forall t, ct t = si d t.
Proof.
  intros E. destruct (conversion_si _ _ _ _ _ temperature_converts E) as (du & dv & E1 & E2 & S).
  exists du. split; [exact E1|]. intros t. specialize (S t).
  assert (dv = (1, 0)) by (change (Some (1, 0) = Some dv) in E2; congruence). subst dv. unfold si in S at 1. simpl in S. lra.
Qed.

(** ** C45: the interpolated quantities *)
Lemma Fvib_at nt T ph i n : (i < nt)%nat -> (n < nv ph)%nat -> 0 <= T i ->
  vibrational_free_energy P nt T ph (weight x) i n =
    zero_point_energy P 1 (fun _ => 0) ph (weight x) 0%nat n + thermal_energy P nt T ph (weight x) i n
    - T i * entropy P nt T ph (weight x) i n / 1000.
Proof.
  intros Hi Hn HT. rewrite (C07_F_is_U_minus_TS P phys_ok) by assumption.
  replace (zero_point_energy P 1 (fun _ => 0) ph (weight x) 0 n) with (zero_point_energy P nt T ph (weight x) i n); [reflexivity|].
  unfold zero_point_energy. rewrite !band_loop_sum by (assumption || lia). reflexivity.
Qed.

(** Thermodynamic-interpolation scheme, with or without the acoustic correction:
    the polynomial fits keep F = U - TS/1000, at whatever volume the minimiser
    returned, because fitting is linear. The static part (U - Uzp - Uth) is the
    same in both columns. *)
Lemma td_identity nt np T p g c ph aco r :
  least_squares_solver fit -> consistent -> nv ph = nvol x -> (edeg s < nvol x)%nat ->
  td nt np T p g c ph aco = Ok r ->
  forall i j, (i < nt)%nat -> 0 <= T i ->
  F r i j = Utot r i j - T i * Ent r i j / 1000 /\
  Fvib r i j = Uzp r i j + Uth r i j - T i * Ent r i j / 1000 /\
  Utot r i j - Uzp r i j - Uth r i j = polyval (VT r i j) (fit (nvol x) (volume x) (static_energy x) (edeg s)).
Proof.
  intros SOL (_ & D) NV DE E i j Hi HT. unfold run_thermodynamics_interpolation in E.
  apply bind_ok in E as (ce & Ece & E). apply bind_ok in E as (vk & Evk & E).
  apply bind_ok in E as (kk & _ & E). injection E as <-.
  unfold to_eunit in Ece. destruct (energy_scale _ _ _ Ece) as (du & dv & _ & _ & Pu & Pv & SC).
  set (k := fst du / fst dv) in *. cbn [scheme_results F Utot Ent Fvib Uzp Uth VT].
  set (v := fst (fst (vk i j))).
  set (aS := fun j => if aco then ce (kieffer_S j (T i)) else 0).
  assert (L2 : forall Y Z W a b, (forall q, (q < nvol x)%nat -> W q = a * Y q + b * Z q) ->
     polyval v (fit (nvol x) (volume x) W (edeg s)) =
     a * polyval v (fit (nvol x) (volume x) Y (edeg s)) + b * polyval v (fit (nvol x) (volume x) Z (edeg s))).
  { intros. apply fit_linear; auto. }
  assert (L3 : forall A B C W a, (forall q, (q < nvol x)%nat -> W q = A q + B q + a * C q) ->
     polyval v (fit (nvol x) (volume x) W (edeg s)) =
     polyval v (fit (nvol x) (volume x) A (edeg s)) + polyval v (fit (nvol x) (volume x) B (edeg s)) + a * polyval v (fit (nvol x) (volume x) C (edeg s))).
  { intros A B C W a Q. rewrite (L2 (fun q => A q + B q) C W 1 a) by (intros; rewrite Q by auto; ring).
    rewrite (L2 A B (fun q => A q + B q) 1 1) by (intros; ring). ring. }
  split; [|split].
  - rewrite (L2 (internal_energy nt (nvol x) (static_energy x)
              (fun j => ce (zero_point_energy P 1 (fun _ => 0) ph (weight x) 0%nat j))
              (fun i j => ce (thermal_energy P nt T ph (weight x) i j)) i)
            (fun q => ce (entropy P nt T ph (weight x) i q) + aS q) _ 1 (- T i / 1000)); [unfold aS; lra|].
    intros q Hq. rewrite free_energy_value, internal_energy_value by auto.
    rewrite (Fvib_at nt T ph i q) by (lia || auto). unfold aS; destruct aco; rewrite !SC; field.
  - rewrite (L3 (fun j => ce (zero_point_energy P 1 (fun _ => 0) ph (weight x) 0%nat j))
                (fun j => ce (thermal_energy P nt T ph (weight x) i j))
                (fun q => ce (entropy P nt T ph (weight x) i q) + aS q) _ (- T i / 1000)); [unfold aS; lra|].
    intros q Hq. rewrite (Fvib_at nt T ph i q) by (lia || auto). unfold aS; destruct aco; rewrite !SC; field.
  - rewrite (L3 (static_energy x) (fun j => ce (zero_point_energy P 1 (fun _ => 0) ph (weight x) 0%nat j))
                (fun j => ce (thermal_energy P nt T ph (weight x) i j)) (internal_energy _ _ _ _ _ i) 1); [lra|].
    intros q Hq. rewrite internal_energy_value by auto. ring.
Qed.

(** Frequency-interpolation scheme: no assumption on the fits. *)
Lemma freq_identity nt np T p g c ph r :
  (c < List.length g)%nat -> fr nt np T p g c ph = Ok r ->
  forall i j, 0 <= T i ->
  F r i j = Utot r i j - T i * Ent r i j / 1000 /\
  Fvib r i j = Uzp r i j + Uth r i j - T i * Ent r i j / 1000 /\
  Utot r i j - Uzp r i j - Uth r i j = F r i j - Fvib r i j.
Proof.
  intros Hc E i j HT. unfold run_frequency_interpolation in E.
  apply bind_ok in E as (ce & Ece & E). apply bind_ok in E as (vk & Evk & E).
  apply bind_ok in E as (kk & _ & E). injection E as <-.
  unfold to_eunit in Ece. destruct (energy_scale _ _ _ Ece) as (du & dv & _ & _ & Pu & Pv & SC).
  cbn [scheme_results F Utot Ent Fvib Uzp Uth VT].
  set (pg := phon_grid _ _ _ _ _).
  assert (A : band_loop (ho_F P) 1 (fun _ => T i) pg (weight x) 0 c =
              band_loop (ho_zpe P) 1 (fun _ => 0) pg (weight x) 0 c + band_loop (ho_eth P) 1 (fun _ => T i) pg (weight x) 0 c
              - T i * band_loop (ho_S P) 1 (fun _ => T i) pg (weight x) 0 c / 1000).
  { apply (Fvib_at 1 (fun _ => T i) pg 0 c); auto. }
  unfold vibrational_free_energy, zero_point_energy, thermal_energy. rewrite !SC, A. repeat split; field; lra.
Qed.

(** Runs. *)
Theorem C45_thermodynamic_scheme tl pl r d :
  least_squares_solver fit -> consistent -> (edeg s < nvol x)%nat ->
  qha_scheme s = "td" -> run tl pl = Ok r ->
  meaning temperature_units (lower (tunit s)) = Some d ->
  forall i j, (i < List.length tl)%nat -> 0 <= si d (nth i tl 0) ->
  F r i j = Utot r i j - si d (nth i tl 0) * Ent r i j / 1000 /\
  Fvib r i j = Uzp r i j + Uth r i j - si d (nth i tl 0) * Ent r i j / 1000 /\
  Utot r i j - Uzp r i j - Uth r i j = F r i j - Fvib r i j.
Proof.
  intros SOL CO DE S E M i j Hi HT. destruct (run_inv _ _ _ E) as (ct & ph & r0 & Ect & Eph & _ & Etd & _ & Efin).
  destruct (kelvin ct Ect) as (d' & M' & KE). rewrite M in M'. injection M' as <-.
  destruct (finalize_keeps _ _ _ _ _ _ Efin) as (-> & -> & -> & -> & -> & -> & _ & EV & _).
  specialize (Etd S). rewrite <- !KE in *.
  destruct (td_identity _ _ _ _ _ _ _ _ _ SOL CO (eq_trans (proj2 (proj2 (phonons_shape _ Eph))) (proj1 CO)) DE Etd i j Hi HT)
    as (A & B & C). split; [exact A|]. split; [exact B|]. lra.
Qed.
Theorem C45_frequency_scheme tl pl r d :
  qha_scheme s = "freq" -> run tl pl = Ok r ->
  meaning temperature_units (lower (tunit s)) = Some d ->
  forall i j, 0 <= si d (nth i tl 0) ->
  F r i j = Utot r i j - si d (nth i tl 0) * Ent r i j / 1000 /\
  Fvib r i j = Uzp r i j + Uth r i j - si d (nth i tl 0) * Ent r i j / 1000 /\
  Utot r i j - Uzp r i j - Uth r i j = F r i j - Fvib r i j.
Proof.
  intros S E M i j HT. destruct (run_inv _ _ _ E) as (ct & ph & r0 & Ect & Eph & _ & _ & Efr & Efin).
  destruct (kelvin ct Ect) as (d' & M' & KE). rewrite M in M'. injection M' as <-.
  destruct (finalize_keeps _ _ _ _ _ _ Efin) as (-> & -> & -> & -> & -> & -> & _).
  specialize (Efr S). rewrite <- !KE in *. refine (freq_identity _ _ _ _ _ _ _ _ _ Efr i j HT).
  destruct (C44_grid 5 (5/100)) as (L & C & _). rewrite L, C. simpl. lia.
Qed.
(** The acoustic correction shifts F and S consistently (U is left alone) ... *)
Theorem C45_acoustic_correction nt np T p g c ph aco r :
  least_squares_solver fit -> consistent -> nv ph = nvol x -> (edeg s < nvol x)%nat ->
  td nt np T p g c ph aco = Ok r ->
  forall i j, (i < nt)%nat -> 0 <= T i ->
  F r i j = Utot r i j - T i * Ent r i j / 1000 /\ Fvib r i j = Uzp r i j + Uth r i j - T i * Ent r i j / 1000.
Proof.
  intros SOL CO NV DE E i j Hi HT.
  destruct (td_identity _ _ _ _ _ _ _ _ _ SOL CO NV DE E i j Hi HT) as (A & B & _). auto.
Qed.
(** ... but no run reaches it: the option always ends in an exception. *)
Theorem C45_acoustic_never_completes tl pl r : kieffer_on s = true -> run tl pl <> Ok r.
Proof. intros E R. destruct (run_inv _ _ _ R) as (_ & _ & _ & _ & _ & A & _). congruence. Qed.

(** H and G: the same pV term, in joules, is added to U and F. *)
Theorem C45_enthalpy_and_gibbs tl pl r de dp dv :
  run tl pl = Ok r ->
  meaning (energy_units K) (lower (eunit s)) = Some de ->
  meaning pressure_units (lower (punit s)) = Some dp ->
  meaning (volume_units K) (lower (vunit s)) = Some dv ->
  forall i j, (i < List.length tl)%nat -> (j < List.length pl)%nat ->
  H r i j - G r i j = Utot r i j - F r i j /\
  fst de * (H r i j - Utot r i j) = (fst dp * nth j pl 0) * (fst dv * VT r i j) /\
  fst de * (G r i j - F r i j) = (fst dp * nth j pl 0) * (fst dv * VT r i j).
Proof.
  intros E Me Mp Mv i j Hi Hj. destruct (run_inv _ _ _ E) as (ct & ph & r0 & Ect & Eph & _ & _ & _ & Efin).
  destruct (finalize_keeps _ _ _ _ _ _ Efin) as (_ & _ & -> & _ & -> & _ & _ & -> & _ & _ & EH & EG).
  unfold set_enthalpy in EH. unfold set_gibbs_free_energy in EG.
  apply bind_ok in EH as (cv & Ecv & EH). apply bind_ok in EH as (cp & Ecp & EH).
  apply bind_ok in EH as (ce & Ece & EH). apply bind_ok in EH as (ce' & Ece' & EH).
  rewrite Ecv, Ecp, Ece, Ece' in EG. cbn [bind] in EG. injection EH as <-. injection EG as <-.
  cbv beta. unfold enthalpy, gibbs. rewrite !kernel_in by auto. unfold enthalpy_entry, gibbs_entry.
  destruct (energy_scale _ _ _ Ece) as (d1 & d2 & M1 & M2 & P1 & P2 & SC).
  destruct (energy_scale _ _ _ Ece') as (d3 & d4 & M3 & M4 & P3 & P4 & SC').
  destruct (conversion_scale _ _ _ _ _ (volume_converts K PK) (volume_pos K PK) (volume_zero K) Ecv) as (d5 & d6 & M5 & M6 & P5 & P6 & SV).
  destruct (conversion_scale _ _ _ _ _ pressure_converts pressure_pos pressure_zero Ecp) as (d7 & d8 & M7 & M8 & P7 & P8 & SP).
  rewrite Me in M1, M4. injection M1 as <-. injection M4 as <-. rewrite Mv in M5. injection M5 as <-.
  rewrite Mp in M7. injection M7 as <-.
  assert (d2 = (1000 / N_A K, 0)) by (change (Some (1000 / N_A K, 0) = Some d2) in M2; congruence). subst d2.
  assert (d3 = (1000 / N_A K, 0)) by (change (Some (1000 / N_A K, 0) = Some d3) in M3; congruence). subst d3.
  assert (d6 = (1, 0)) by (change (Some (1, 0) = Some d6) in M6; congruence). subst d6.
  assert (d8 = (1, 0)) by (change (Some (1, 0) = Some d8) in M8; congruence). subst d8.
  rewrite !SC', !SC, !SV, !SP. cbn [fst] in *.
  assert (N_A K <> 0) by (destruct PK; lra). assert (fst de <> 0) by lra.
  repeat split; field; auto.
Qed.
End Run.

Print Assumptions C45_thermodynamic_scheme.
Print Assumptions C45_frequency_scheme.
Print Assumptions C45_acoustic_correction.
Print Assumptions C45_acoustic_never_completes.
Print Assumptions C45_enthalpy_and_gibbs.
