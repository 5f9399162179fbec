(** C96, continued: the physics of what `quantas qha FILE` writes, in terms of the
    document in the input file.
    Concrete runs which meet the hypotheses are in QhaCommandProps3. *)
From Coq Require Import Reals String Ascii List Bool Arith ZArith Lia Lra FunctionalExtensionality.
From Flocq Require Import Core.
From Coquelicot Require Import Coquelicot.
From Verif Require QhaReaderModel QhaReaderProps QhaRunModel QhaRunProps QhaRunProps2 QhaEqProps QhaFitProps CliModel CliProps CitationsModel RunLogProps StatMechModel StatMechSpec StatMechProofs EvEosModel EvEosProps ThermoProps
  PolyModel PolyProps PolyfitProofs.
From Verif Require Import Py DecimalModel DecimalProofs FormatModel FormatProofs TableModel StoreModel UnitsModel UnitsSpec UnitsProofs UnitsProps GridModel GridProps ReportModel ReportSpec ReportProofs
  QhaReportModel QhaReportProps QhaReportProps2 H5Model PhononInputModel PhononInputProps HaCommandModel HaCommandProps QhaCommandModel QhaCommandProps.
Import ListNotations.
Open Scope string_scope.
Open Scope list_scope.
Open Scope nat_scope.

(** ** What is asked, and of what *)
(** The document: name, atoms, q-points announced and given, supercell, volumes,
    energies, weights and frequencies. *)
Record crystal := {
  c_name : string; c_na : nat; c_nq : nat; c_given : nat; c_cell : (R * R * R) * (R * R * R) * (R * R * R);
  c_vols : list R; c_ens : list R; c_wt : nat -> R; c_F : nat -> nat -> nat -> R }.
Definition says_crystal (y : QhaReaderModel.yaml) (c : crystal) : Prop :=
  describes y (c_name c) (c_na c) (c_nq c) (c_given c) (c_cell c) (c_vols c) (c_ens c) (c_wt c) (c_F c).
(** The units in SI: energy, volume, frequency, temperature, pressure; [ee] and [ve]
    are energy and volume as the conversion of energies per volume has them. *)
Record in_si := { de : R * R; ee : R * R; dv : R * R; ve : R * R; df : R * R; dt : R * R; dp : R * R }.
(** The mean over the given q-points, weights normalised by their sum, of the sums
    of g over modes with frequencies w (in Hz). *)
Definition modes_at (c : crystal) (w : nat -> nat -> R) (g : R -> R) : R :=
  StatMechSpec.Rsum (c_given c) (fun q => (c_wt c q / StatMechSpec.Rsum (c_given c) (c_wt c) * StatMechSpec.Rsum (c_na c * 3) (fun b => QhaEqProps.counted g (w q b)))%R).
Definition volume_of (c : crystal) (k : nat) : R := nth k (c_vols c) 0%R.
Definition asked (r : R * R * R) (l : list R) : Prop := stepped (fst (fst r)) (snd (fst r)) (snd r) l.

Section Physics.
Variable K : constants.
Variables hplanck kboltzmann : R.
Hypothesis PK : positive_constants K.
Hypotheses (Hh : (0 < hplanck)%R) (Hk : (0 < kboltzmann)%R).
Notation oz := (QhaEqProps.oscillator_zero hplanck).
Notation oe := (QhaEqProps.oscillator_energy hplanck kboltzmann).
Notation os := (QhaEqProps.oscillator_entropy hplanck kboltzmann).
Notation oc := (QhaEqProps.oscillator_capacity hplanck kboltzmann).
Notation ofr := (QhaFitProps.oscillator_free hplanck kboltzmann).
(** Free energy of an oscillator; at absolute zero its zero-point energy. *)
Definition oscillator_F (T w : R) : R := if Req_EM_T T 0 then oz w else ofr T w.
(** Harmonic free energy at temperature T (kelvin) and volume number k, in the
    energy unit of the document. *)
Definition isotherm (c : crystal) (m : in_si) (T : R) (k : nat) : R :=
  (nth k (c_ens c) 0 + modes_at c (fun q b => si (df m) (c_F c q b k)) (oscillator_F T) / fst (de m))%R.

Section Input.
Variables (s : QhaRunModel.settings) (c : crystal) (m : in_si) (x : QhaRunModel.input).
Hypothesis IN : same_input (c_na c) (c_nq c) (c_vols c) (c_ens c) (padded (c_given c) (c_wt c) 0%R) (padded (c_given c) (c_F c) (fun _ _ => 0%R)) x.
Hypothesis GQ : c_given c <= c_nq c.
Hypothesis LE : List.length (c_ens c) = List.length (c_vols c).
Lemma mean_document w w' g : (forall q b, q < c_given c -> b < c_na c * 3 -> w q b = w' q b) -> QhaFitProps.mean_of x w g = modes_at c w' g.
Proof.
  intros E. destruct IN as (_ & _ & _ & B & M & _ & _ & W & T). unfold QhaFitProps.mean_of, modes_at. rewrite B, M, T, (sum_padded _ _ _ GQ), (sum_Rsum (c_given c) (c_wt c)).
  rewrite (Rsum_tail (c_given c) (c_nq c)).
  - apply Rsum_ext. intros q Hq. rewrite W by lia. unfold padded. destruct (Nat.ltb_spec q (c_given c)); [|lia]. f_equal. apply Rsum_ext. intros b Hb. now rewrite E.
  - exact GQ.
  - intros q (Q1 & Q2). rewrite W by exact Q2. unfold padded. destruct (Nat.ltb_spec q (c_given c)); [lia|]. unfold Rdiv. now rewrite !Rmult_0_l.
Qed.
Lemma osc_F_value T w : (0 <= T)%R -> (1000 / N_A K * StatMechModel.ho_F (QhaRunModel.P K hplanck kboltzmann) T w)%R = QhaEqProps.counted (oscillator_F T) w.
Proof.
  intros HT. assert (PN : (0 < N_A K)%R) by apply PK. unfold oscillator_F. destruct (Req_EM_T T 0) as [->|NZ].
  - unfold StatMechModel.ho_F, QhaEqProps.counted, StatMechModel.Rle_b, QhaEqProps.oscillator_zero. destruct (Rle_dec w 0); [ring|]. unfold StatMechModel.Req_b. destruct (Req_EM_T 0 0); [|lra].
    cbn [StatMechModel.NA StatMechModel.hpl QhaRunModel.P]. field. lra.
  - assert (TP : (0 < T)%R) by lra. destruct (QhaFitProps.ho_values K hplanck kboltzmann PK Hh Hk T TP) as (_ & _ & _ & _ & A). rewrite A. unfold QhaEqProps.counted. reflexivity.
Qed.
Lemma ha_isotherm tl h : QhaRunModel.ha_run K hplanck kboltzmann s x tl = QhaRunModel.Ok h ->
  meaning (energy_units K) (lower (QhaRunModel.eunit s)) = Some (de m) -> meaning (frequency_units K) (lower (QhaRunModel.funit s)) = Some (df m) -> meaning temperature_units (lower (QhaRunModel.tunit s)) = Some (dt m) ->
  forall i k, i < List.length tl -> k < List.length (c_vols c) -> (0 <= si (dt m) (nth i tl 0))%R -> QhaRunModel.ha_F h i k = isotherm c m (si (dt m) (nth i tl 0%R)) k.
Proof.
  intros E Me Mf Mt i k Hi Hk0 HT. pose proof IN as (N & _ & En & B & M & Nv & Fq & W & T).
  destruct (QhaEqProps.ha_inv K hplanck kboltzmann s x tl h E) as (d' & ct & ph & ce & Md & KE & Eph & Ece & _ & _ & _ & _ & A5 & _ & A7).
  rewrite Mt in Md. injection Md as <-. rewrite A7 by lia. rewrite A5, En by lia. unfold isotherm. f_equal.
  pose proof (QhaFitProps.to_eunit_joule K PK s ce (de m) Ece Me) as CE. pose proof (QhaFitProps.phonons_value K PK s x ph (df m) Eph Mf) as FQ.
  destruct (QhaRunProps.phonons_shape K s x ph Eph) as (Q1 & Q2 & Q3).
  assert (PD : (0 < fst (de m))%R) by (exact (energy_pos K PK _ _ Me)).
  apply Rmult_eq_reg_l with (fst (de m)); [|lra]. rewrite CE. transitivity (modes_at c (fun q b => si (df m) (c_F c q b k)) (oscillator_F (si (dt m) (nth i tl 0%R)))); [|field; lra].
  rewrite <- (mean_document (fun q b => StatMechModel.freq ph q b k)).
  - unfold StatMechModel.vibrational_free_energy. rewrite StatMechProofs.band_loop_sum by (assumption || lia). unfold StatMechSpec.band_sum, QhaFitProps.mean_of. rewrite Q1, Q2, !QhaEqProps.Rsum_scale.
    apply Rsum_ext. intros q _. rewrite !QhaEqProps.Rsum_scale. apply Rsum_ext. intros b _. rewrite KE. rewrite <- (osc_F_value _ _ HT). unfold QhaRunModel.weight. ring.
  - intros q b Hq Hb. rewrite FQ, Fq by lia. unfold padded. destruct (Nat.ltb_spec q (c_given c)); [reflexivity|lia].
Qed.
End Input.

(** ** A run on a file which can be calculated *)
Variable yaml_load : string -> QhaReaderModel.parsed.
Variable np_polyfit : nat -> (nat -> R) -> (nat -> R) -> nat -> list R.
Variable roots : list R -> list (R * R).
Variable eos_fit : string -> nat -> (nat -> R) -> (nat -> R) -> QhaRunModel.outcome ((R * R * R * R) * (shown * shown * shown * shown)).
Variable float_text : R -> string.
Variable times : nat -> string.
Variable total_time : string.
Variable encode : result_file -> string.
Variable special_case : qha_options -> QhaReaderModel.yaml -> CliModel.job.
Variables (u : qha_options) (f : string) (o : option string) (silent d : bool) (a : CliModel.result bool) (w : CliModel.world).
Notation out := (CliModel.outpath (CliModel.qha_command (qha_print_settings u)) f o).
Notation lf := (CliModel.logpath out).
Notation run_command := (qha_main K hplanck kboltzmann yaml_load np_polyfit roots eos_fit float_text times total_time encode special_case u f o silent d a w).
Notation tl := (points (temperatures u)).
Notation pl := (points (pressures u)).
Notation s := (qha_settings u).
Notation results x := (qha_results K hplanck kboltzmann np_polyfit roots eos_fit u tl pl x).
Notation logged := (QhaCommandProps.logged u f o).
Notation tag := (eos_function_of (eos_tag u)).

Definition units_mean (m : in_si) : Prop :=
  meaning (energy_units K) (lower (eunit_q u)) = Some (de m) /\ meaning (ep_energy_units K) (lower (eunit_q u)) = Some (ee m) /\
  meaning (volume_units K) (lower (vunit_q u)) = Some (dv m) /\ meaning (ep_volume_units K) (lower (vunit_q u)) = Some (ve m) /\
  meaning (frequency_units K) (lower (if String.eqb (funit_q u) "cm-1" then "cm^-1" else funit_q u)) = Some (df m) /\
  meaning temperature_units (lower (tunit_q u)) = Some (dt m) /\ meaning pressure_units (lower (punit_q u)) = Some (dp m).
(** A polynomial of the chosen degree which fits the isotherm. *)
Definition fits_isotherm (c : crystal) (m : in_si) (T : R) (g : list R) : Prop :=
  QhaFitProps.fitted (energy_degree u) (List.length (c_vols c)) (volume_of c) (isotherm c m T) g.
(** What the table of the input needs: with an equation of state, that the fit of the
    static energies returns, with errors which can be printed. *)
Definition tabulates (c : crystal) : Prop :=
  minim u = "poly" \/ minim u = "eos" /\ forall V E, (forall k, k < List.length (c_vols c) -> V k = volume_of c k /\ E k = nth k (c_ens c) 0%R) ->
    exists pars e1 e2 e3 e4, eos_fit tag (List.length (c_vols c)) V E = QhaRunModel.Ok (pars, (e1, e2, e3, e4)) /\ forall e, In e [e1; e2; e3; e4] -> e <> Nan /\ forall z, e = Fin z -> (0 <= z)%R.
(** A polynomial g has a minimum of g(v) + p v, with p the pressure in the unit of g. *)
Definition has_minimum (m : in_si) (g : list R) (p : R) : Prop :=
  forall p0, (p0 * fst (ee m) / fst (ve m) = fst (dp m) * p)%R -> exists v, (PolyModel.polyval v (PolyModel.deriv g) + p0 = 0 /\ 0 < PolyModel.polyval v (PolyModel.deriv (PolyModel.deriv g)))%R.
Definition exact_roots : Prop := forall g, List.length g <= Nat.max 1 (energy_degree u) -> PolyProps.roots_exact roots g.
(** What the minimisation needs: with polynomials, exact roots and a minimum of
    F + PV at every temperature and pressure; with an equation of state, that the
    fits return. *)
Definition minimises (c : crystal) (m : in_si) : Prop :=
  (minim u = "poly" /\ exact_roots /\
   forall temps press, asked (temperatures u) temps -> asked (pressures u) press -> forall t p g, In t temps -> In p press -> fits_isotherm c m (si (dt m) t) g -> has_minimum m g p) \/
  (minim u = "eos" /\
   forall temps press, asked (temperatures u) temps -> asked (pressures u) press -> forall t p p0 V Y, In t temps -> In p press ->
     (p0 * fst (ee m) / fst (ve m) = fst (dp m) * p)%R -> (forall k, k < List.length (c_vols c) -> V k = volume_of c k /\ Y k = (isotherm c m (si (dt m) t) k + p0 * V k)%R) ->
     exists pars, eos_fit tag (List.length (c_vols c)) V Y = QhaRunModel.Ok pars).
Record prepared (text : string) (y : QhaReaderModel.yaml) (c : crystal) (m : in_si) : Prop := {
  k_started : QhaCommandProps.started u f o w text;
  k_temperatures : range_ok (temperatures u);
  k_pressures : range_ok (pressures u);
  k_yaml : yaml_load text = QhaReaderModel.Parsed y;
  k_says : says_crystal y c;
  k_four : 4 <= List.length (c_vols c);
  k_energies : List.length (c_ens c) = List.length (c_vols c);
  k_distinct : NoDup (c_vols c);
  k_degree : energy_degree u < List.length (c_vols c) /\ frequency_degree u < List.length (c_vols c);
  k_solver : PolyfitProofs.least_squares_solver np_polyfit;
  k_free : QhaCommandProps.out_free u f o a w;
  k_units : units_mean m;
  k_kelvin : forall temps, asked (temperatures u) temps -> forall t, In t temps -> (0 <= si (dt m) t)%R }.

(** What the file holds: [r] names the tables. *)
Definition holds (h : result_file) (temps press : list R) (r : QhaRunModel.results) : Prop :=
  let tab name unit g := HaCommandProps.table h name unit (List.length temps) (List.length press) g in
  let e := eunit_q u in let me := "m" +++ eunit_q u in
  documented h /\ vector h "T" (tunit_q u) temps /\ vector h "P" (punit_q u) press /\
  tab "Uzp" e (QhaRunModel.Uzp r) /\ tab "Uth" e (QhaRunModel.Uth r) /\ tab "Utot" e (QhaRunModel.Utot r) /\ tab "S" me (QhaRunModel.Ent r) /\
  tab "Fvib" e (QhaRunModel.Fvib r) /\ tab "F" e (QhaRunModel.F r) /\ tab "Cv" me (QhaRunModel.Cv r) /\ tab "VT" (vunit_q u) (QhaRunModel.VT r) /\
  tab "Cp" e (QhaRunModel.Cp r) /\ tab "Cp-Cv" e (QhaRunModel.CpCv r) /\ tab "KT" (punit_q u) (QhaRunModel.KT r) /\ tab "KS" (punit_q u) (QhaRunModel.KS r) /\
  tab "Kp" "" (QhaRunModel.Kp r) /\ tab "H" e (QhaRunModel.H r) /\ tab "G" e (QhaRunModel.G r) /\ tab "alphaV" "K^-1" (QhaRunModel.alphaV r) /\ tab "gruneisen" "" (QhaRunModel.gruneisen r).
(** The command completes and writes tables of which [claim] is true. *)
Definition computed (claim : list R -> list R -> QhaRunModel.results -> Prop) : Prop :=
  exists v h temps press r, run_command = (CliModel.Ok tt, v) /\ CliModel.fs v out = CliModel.File (encode h) /\ holds h temps press r /\
    asked (temperatures u) temps /\ asked (pressures u) press /\ claim temps press r /\ forall q, q <> lf -> q <> out -> CliModel.fs v q = CliModel.fs w q.

Lemma stored name temps press r : holds (qha_result_file s name temps press r) temps press r.
Proof.
  unfold holds. set (h := qha_result_file s name temps press r).
  assert (TB : forall f0 n m name0 unit0 at0, TableModel.find name0 (named h) = Some {| content := array_of n m f0; attributes := at0 |} ->
    TableModel.find "unit" at0 = Some unit0 -> HaCommandProps.table h name0 unit0 n m f0).
  { intros f0 n m name0 unit0 at0 E U0. destruct (array_rows n m f0) as (rows & A & B). eexists _, rows. split; [exact E|]. cbn [content attributes]. auto. }
  split.
  { split; [eexists; reflexivity|]. intros k d0 Hd. subst h. cbn [named qha_result_file map fst snd qha_properties In] in Hd. repeat (destruct Hd as [[= <- <-]|Hd]; [eexists; reflexivity|]). destruct Hd. }
  split; [eexists; split; [reflexivity|]; split; reflexivity|]. split; [eexists; split; [reflexivity|]; split; reflexivity|].
  repeat split; eapply TB; reflexivity.
Qed.

Section Calculable.
Variables (text : string) (y : QhaReaderModel.yaml) (c : crystal) (m : in_si).
Hypothesis PR : prepared text y c m.
Notation inside x := (same_input (c_na c) (c_nq c) (c_vols c) (c_ens c) (padded (c_given c) (c_wt c) 0%R) (padded (c_given c) (c_F c) (fun _ _ => 0%R)) x).
Lemma range_asked r : range_ok r -> asked r (points r).
Proof. intros H. destruct (range_points r H) as (l & _ & -> & _ & S). exact S. Qed.
Lemma kelvin_points i : i < List.length tl -> (0 <= si (dt m) (nth i tl 0))%R.
Proof. intros Hi. apply (k_kelvin _ _ _ _ PR tl (range_asked _ (k_temperatures _ _ _ _ PR))). now apply nth_In. Qed.
Lemma distinct_volumes x : inside x -> PolyfitProofs.distinct (QhaRunModel.nvol x) (QhaRunModel.volume x).
Proof.
  intros (N & V & _) i j Hi Hj E. rewrite N in Hi, Hj. rewrite !V in E by assumption. exact (proj1 (NoDup_nth (c_vols c) 0%R) (k_distinct _ _ _ _ PR) i j Hi Hj E).
Qed.
Lemma fits_document x g T Y : inside x -> (forall k, k < List.length (c_vols c) -> Y k = isotherm c m T k) ->
  QhaFitProps.fitted (energy_degree u) (QhaRunModel.nvol x) (QhaRunModel.volume x) Y g <-> fits_isotherm c m T g.
Proof.
  intros (N & V & _) E. unfold fits_isotherm, QhaFitProps.fitted. rewrite N. split; intros (L & H); (split; [exact L|]); intros k Hk0; rewrite <- (H k Hk0); apply PolyProps.psum_ext.
  all: intros j Hj; unfold volume_of; rewrite V, E by exact Hj; reflexivity.
Qed.
Notation kp_of := (ZnearestE (let '(r1, r2, r3) := c_cell c in volume_ratio r1 r2 r3)).
Notation hdr := {| job := c_name c; natoms := Z.of_nat (c_na c); QhaReportModel.kpoints := kp_of |}.
Lemma crystal_readable : readable y (c_name c) (c_na c) (c_nq c) kp_of (c_vols c) (c_ens c) (padded (c_given c) (c_wt c) 0%R) (padded (c_given c) (c_F c) (fun _ _ => 0%R)).
Proof. pose proof (k_says _ _ _ _ PR) as D. unfold says_crystal in D. destruct (c_cell c) as [[r1 r2] r3]. exact (described_readable _ _ _ _ _ _ _ _ _ _ _ _ D). Qed.
Lemma given_few : c_given c <= c_nq c.
Proof. destruct (k_says _ _ _ _ PR) as [_ _ L _ _ _ _]. exact L. Qed.
Lemma units_names : no_space (QhaRunModel.eunit s) /\ no_space (QhaRunModel.vunit s) /\ no_space (QhaRunModel.punit s).
Proof.
  destruct (units_offered _ _ _ _ _ (k_started _ _ _ _ PR)) as (A & B & _ & _ & C). cbn [QhaRunModel.eunit QhaRunModel.vunit QhaRunModel.punit qha_settings]. cbn [In] in A, B, C.
  split; [|split].
  - destruct A as [<-|[<-|[<-|[]]]]; reflexivity.
  - destruct B as [<-|[<-|[]]]; reflexivity.
  - destruct C as [<-|[<-|[]]]; reflexivity.
Qed.
Lemma funit_means : meaning (frequency_units K) (lower (QhaRunModel.funit s)) = Some (df m).
Proof. exact (proj1 (proj2 (proj2 (proj2 (proj2 (k_units _ _ _ _ PR)))))). Qed.
Lemma tag_known : exists form, EvEosModel.set_eos_type tag = Some form.
Proof. destruct (choices_offered _ _ _ _ _ (k_started _ _ _ _ PR)) as (_ & _ & C). cbn [In] in C. destruct C as [<-|[<-|[<-|[<-|[]]]]]; eexists; reflexivity. Qed.
Lemma scheme_known : scheme u = "td" \/ scheme u = "freq".
Proof. destruct (choices_offered _ _ _ _ _ (k_started _ _ _ _ PR)) as (C & _ & _). cbn [In] in C. destruct C as [<-|[<-|[]]]; auto. Qed.
Lemma positive_units : (0 < fst (ee m) /\ 0 < fst (ve m) /\ 0 < fst (dp m))%R.
Proof.
  destruct (k_units _ _ _ _ PR) as (_ & E & _ & V & _ & _ & P0). split; [|split].
  - exact (ep_energy_pos K PK _ _ E).
  - exact (ep_volume_pos K PK _ _ V).
  - exact (pressure_pos _ _ P0).
Qed.
Lemma target p p0 : pressure_to_energy K p (QhaRunModel.eunit s) (QhaRunModel.vunit s) (QhaRunModel.punit s) = Some p0 -> (p0 * fst (ee m) / fst (ve m) = fst (dp m) * p)%R.
Proof.
  destruct (k_units _ _ _ _ PR) as (_ & E & _ & V & _ & _ & P0). destruct positive_units as (A & B & C). rewrite p2e_value. cbn [QhaRunModel.eunit QhaRunModel.vunit QhaRunModel.punit qha_settings]. rewrite E, V, P0.
  intros [= <-]. field. lra.
Qed.
Lemma concise_ok l v e : e <> Nan -> (forall z, e = Fin z -> (0 <= z)%R) -> exists t, concise float_text l v e = QhaRunModel.Ok t.
Proof.
  intros N P0. destruct e as [z| |]; [|eexists; reflexivity|contradiction]. unfold concise. specialize (P0 z eq_refl).
  destruct (Rlt_bool z 0) eqn:Z; [exfalso|destruct (Req_bool z 0); eexists; reflexivity]. revert Z. case Raux.Rlt_bool_spec; [lra|discriminate].
Qed.
Hypothesis TB : tabulates c.
Lemma input_ready : exists x lines, phonon_input y = QhaReaderModel.Ok (Some x) /\ inside x /\ report_input K eos_fit float_text s x hdr = QhaRunModel.Ok lines.
Proof.
  destruct (readable_input _ _ _ _ _ _ _ _ _ crystal_readable) as (x & E & I). pose proof I as (N & V & En & _).
  destruct (k_units _ _ _ _ PR) as (Me & Mee & Mv & Mve & Mf & Mt & Mp). destruct units_names as (N1 & N2 & N3). pose proof (distinct_volumes x I) as DV.
  assert (RI : exists lines, report_input K eos_fit float_text s x hdr = QhaRunModel.Ok lines).
  { destruct TB as [MI|(MI & FI)].
    - destruct (C88_input K eos_fit float_text s x N1 N2 N3 hdr (ee m) (ve m) (dp m)) as (lines & RL & _); [|exact Mee|exact Mve|exact Mp|rewrite N; pose proof (k_four _ _ _ _ PR); lia|exact DV|eauto].
      unfold QhaRunModel.eos_on. cbn [QhaRunModel.minimization qha_settings]. now rewrite MI.
    - destruct (FI (QhaRunModel.volume x) (fun k => (QhaRunModel.static_energy x k + 0 * QhaRunModel.volume x k)%R)) as ((((e0 & k0) & k1) & v0) & e1 & e2 & e3 & e4 & EF & EE).
      { intros k Hk0. rewrite V, En by (exact Hk0 || (rewrite (k_energies _ _ _ _ PR); exact Hk0)). split; [reflexivity|]. unfold volume_of. ring. }
      destruct tag_known as (form & TF). destruct positive_units as (P1 & P2 & P3).
      assert (CE : forall l v e, In e [e1; e2; e3; e4] -> exists t, concise float_text l v e = QhaRunModel.Ok t) by (intros l v e He; destruct (EE e He); now apply concise_ok).
      destruct (CE "E0" e0 e1 ltac:(cbn; auto)) as (l1 & C1). destruct (CE "K'" k1 e3 ltac:(cbn; auto)) as (l3 & C3). destruct (CE "V0" v0 e4 ltac:(cbn; auto)) as (l4 & C4).
      assert (C2 : exists t, concise float_text "K0" (QhaReportProps.in_unit (ee m) (ve m) (dp m) k0) (QhaReportProps.shown_in_unit (ee m) (ve m) (dp m) e2) = QhaRunModel.Ok t).
      { destruct (EE e2 ltac:(cbn; auto)) as (G1 & G2). apply concise_ok.
        - destruct e2; cbn; congruence.
        - intros z. destruct e2 as [z2| |]; cbn; try discriminate. intros [= <-]. specialize (G2 z2 eq_refl). unfold in_unit.
          apply Rmult_le_pos; [apply Rmult_le_pos; [apply Rmult_le_pos; lra|]|]; apply Rlt_le, Rinv_0_lt_compat; assumption. }
      destruct C2 as (l2 & C2).
      destruct (eos_report K eos_fit float_text s x N1 N2 N3 (ee m) (ve m) (dp m) e0 k0 k1 v0 e1 e2 e3 e4) with (h := hdr) (form := form) (a := l1) (b := l2) (c := l3) (d := l4) as (lines & RL & _); try assumption.
      + unfold QhaRunModel.eos_on. cbn [QhaRunModel.minimization qha_settings]. now rewrite MI.
      + rewrite N. exact EF.
      + eauto. }
  destruct RI as (lines & RI). exists x, lines. auto.
Qed.
(** ** Runs which fail *)
(** What stands between the table and the start of the calculation *)
Definition cautioned (lines : list string) : list string := [""] ++ lines ++ [""; banner "Quasi-Harmonic Approximation calculation started"].
Definition beyond_gamma : string := RunLogProps.page ["WARNING! The Kieffer's method for acoustic frequencies was requested."; "However, it seems that more than Gamma-point phonons are reported in ";
  "the provided input file."] +++ "Please, check the consistency of the final results.".
Lemma failing x lines e : phonon_input y = QhaReaderModel.Ok (Some x) -> report_input K eos_fit float_text s x hdr = QhaRunModel.Ok lines -> results x = QhaRunModel.Raises e ->
  exists v, run_command = (CliModel.Raises e, v) /\ logged v ["Job: " +++ c_name c] /\ logged v (cautioned (if ((1 <? kp_of)%Z && acoustic u)%bool then [beyond_gamma] else [])) /\
  forall q, q <> lf -> CliModel.fs v q = CliModel.fs w q.
Proof.
  intros E RI RR. destruct (report_acoustic K eos_fit float_text u y _ _ _ _ _ _ _ _ crystal_readable x lines (k_energies _ _ _ _ PR) E RI) as (ev & RE).
  pose proof (not_apart u y _ _ _ _ _ _ _ _ (k_temperatures _ _ _ _ PR) (k_pressures _ _ _ _ PR) crystal_readable (k_energies _ _ _ _ PR)) as SA.
  pose proof (reads_text K hplanck kboltzmann yaml_load np_polyfit roots eos_fit float_text times total_time encode special_case u f o text y _ _ _ _ _ _ _ _ (k_yaml _ _ _ _ PR) crystal_readable (k_four _ _ _ _ PR) SA) as RX.
  assert (RN : exists ev', qha_run K hplanck kboltzmann np_polyfit roots eos_fit times total_time u tl pl y = (run_start ++ ev', CliModel.Raises e)).
  { unfold qha_run. rewrite E. destruct (QhaRunModel.phonons_Hz K s x) as [ph|e'] eqn:PH.
    - rewrite RR. eauto.
    - exfalso. unfold QhaRunModel.phonons_Hz in PH. destruct (QhaEqProps.conversion_total _ _ _ "Hz" (df m) (1, 0)%R (frequency_converts K PK) funit_means eq_refl) as (cv & CV). rewrite CV in PH. discriminate. }
  destruct RN as (ev' & RN).
  edestruct (run_fails K hplanck kboltzmann yaml_load np_polyfit roots eos_fit float_text times total_time encode special_case u f o silent d a w text) as (v & A & B & C);
    [exact (k_started _ _ _ _ PR)|exact (k_temperatures _ _ _ _ PR)|exact (k_pressures _ _ _ _ PR)|exact RX|exact RE|exact RN|].
  exists v. split; [exact A|]. rewrite !RunLogProps.voices_app, !hears, <- !app_assoc in B. split; [exact (heading_job u f o d _ _ _ _ _ _ _ _ B)|]. split; [|exact C].
  eexists. split; [exact B|]. do 4 apply contains_skip. replace (RunLogProps.voices d (if ((1 <? kp_of)%Z && QhaRunModel.kieffer_on s)%bool then [CliModel.Warn warning_text] else []))
    with (if ((1 <? kp_of)%Z && acoustic u)%bool then [beyond_gamma] else []) by (cbn [QhaRunModel.kieffer_on qha_settings]; destruct (_ && _)%bool; reflexivity).
  unfold cautioned, run_start. rewrite RunLogProps.voices_app, hears. generalize (if ((1 <? kp_of)%Z && acoustic u)%bool then [beyond_gamma] else []). intros l1. eexists [], _. cbn [app]. rewrite <- !app_assoc. reflexivity.
Qed.
(** Acoustic branches are offered, and cannot be calculated: AttributeError, no result.
    Before it the log warns if, and only if, the cell is larger than the primitive one. *)
Theorem C96_acoustic_refuted : acoustic u = true ->
  exists v, run_command = (CliModel.Raises "AttributeError", v) /\ logged v ["Job: " +++ c_name c] /\
  ((1 < kp_of)%Z -> logged v (cautioned [beyond_gamma])) /\ ((kp_of <= 1)%Z -> logged v (cautioned [])) /\
  forall q, q <> lf -> CliModel.fs v q = CliModel.fs w q.
Proof.
  intros AC. destruct input_ready as (x & lines & E & I & RI). destruct (failing x lines "AttributeError" E RI) as (v & A & B & B' & C).
  2: { exists v. split; [exact A|]. split; [exact B|]. rewrite AC, andb_true_r in B'. destruct (Z.ltb_spec 1 kp_of) as [Lt|Le]; (split; [|split]); try exact C; intros H0; try exact B'; lia. }
  unfold qha_results, QhaRunModel.run. destruct (k_units _ _ _ _ PR) as (_ & _ & _ & _ & _ & Mt & _).
  destruct (QhaEqProps.conversion_total _ _ (QhaRunModel.tunit s) "K" (dt m) (1, 0)%R temperature_converts Mt eq_refl) as (ct & CT). rewrite CT. cbn [QhaRunModel.bind].
  destruct (QhaEqProps.conversion_total _ _ _ "Hz" (df m) (1, 0)%R (frequency_converts K PK) funit_means eq_refl) as (cf & CF).
  destruct (fine_grid 5 (5 / 100)). unfold QhaRunModel.phonons_Hz. rewrite CF. cbn [QhaRunModel.bind QhaRunModel.kieffer_on qha_settings]. now rewrite AC.
Qed.
(** A temperature and pressure at which F + PV has no minimum ends the whole run. *)
Lemma first_error_only {A} e (l : list (QhaRunModel.outcome A)) : (forall z, In z l -> (exists b, z = QhaRunModel.Ok b) \/ z = QhaRunModel.Raises e) -> In (QhaRunModel.Raises e) l -> QhaRunModel.first_error l = Some e.
Proof.
  induction l as [|z l IH]; [intros _ []|]. intros A0 B. destruct (A0 z (or_introl eq_refl)) as [(b & ->)| ->]; [|reflexivity]. cbn [QhaRunModel.first_error]. apply IH; [intros z Hz; apply A0; now right|].
  destruct B as [B|B]; [discriminate|exact B].
Qed.
Lemma table_raises {A} (z : A) n0 m0 g e i j : (forall i j, i < n0 -> j < m0 -> (exists b, g i j = QhaRunModel.Ok b) \/ g i j = QhaRunModel.Raises e) -> i < n0 -> j < m0 -> g i j = QhaRunModel.Raises e ->
  QhaRunModel.table z n0 m0 g = QhaRunModel.Raises e.
Proof.
  intros A0 Hi Hj Q. unfold QhaRunModel.table. rewrite (first_error_only e); [reflexivity| |].
  - intros v Hv. apply in_flat_map in Hv as (i0 & Hi0 & Hv). apply in_map_iff in Hv as (j0 & <- & Hj0). apply in_seq in Hi0, Hj0. apply A0; lia.
  - apply in_flat_map. exists i. split; [apply in_seq; lia|]. apply in_map_iff. exists j. split; [exact Q|apply in_seq; lia].
Qed.
Theorem C96_no_minimum_refuted : acoustic u = false -> minim u = "poly" -> exact_roots ->
  (forall temps press, asked (temperatures u) temps -> asked (pressures u) press -> exists t p, In t temps /\ In p press /\ forall g, fits_isotherm c m (si (dt m) t) g -> ~ has_minimum m g p) ->
  exists v, run_command = (CliModel.Raises "IndexError", v) /\ logged v ["Job: " +++ c_name c] /\ logged v (cautioned []) /\ forall q, q <> lf -> CliModel.fs v q = CliModel.fs w q.
Proof.
  intros AC MI RO NM. destruct input_ready as (x & lines & E & I & RI). destruct (failing x lines "IndexError" E RI) as (v & A & B & B' & C); [|exists v; rewrite AC, andb_false_r in B'; auto]. clear E RI.
  destruct (NM tl pl (range_asked _ (k_temperatures _ _ _ _ PR)) (range_asked _ (k_pressures _ _ _ _ PR))) as (t & p & Ht & Hp & NO).
  apply (In_nth _ _ 0%R) in Ht as (i & Hi & <-). apply (In_nth _ _ 0%R) in Hp as (j & Hj & <-).
  destruct (k_units _ _ _ _ PR) as (Me & Mee & Mv & Mve & Mf & Mt & Mp). pose proof I as (N & V & En & _). pose proof (distinct_volumes x I) as DV.
  destruct (QhaEqProps.C73_harmonic_completes K hplanck kboltzmann PK s x tl (offered_units hplanck yaml_load eos_fit float_text total_time special_case u f o w text (k_started _ _ _ _ PR))) as (h & HA).
  pose proof (ha_isotherm s c m x I given_few (k_energies _ _ _ _ PR) tl h HA Me Mf Mt) as IS.
  assert (PO : QhaRunModel.poly_on s = true) by (unfold QhaRunModel.poly_on; cbn [QhaRunModel.minimization qha_settings]; now rewrite MI).
  assert (DE : energy_degree u < QhaRunModel.nvol x) by (rewrite N; exact (proj1 (k_degree _ _ _ _ PR))).
  assert (TP : forall q, exists p0, pressure_to_energy K q (QhaRunModel.eunit s) (QhaRunModel.vunit s) (QhaRunModel.punit s) = Some p0) by (intros q; rewrite p2e_value; cbn [QhaRunModel.eunit QhaRunModel.vunit QhaRunModel.punit qha_settings]; rewrite Mee, Mve, Mp; eauto).
  assert (EN : forall Fe q pars, (exists b, QhaRunModel.minimize_volume K np_polyfit roots (eos_parameters eos_fit) s x (QhaRunModel.volume x) Fe q pars = QhaRunModel.Ok b) \/
    QhaRunModel.minimize_volume K np_polyfit roots (eos_parameters eos_fit) s x (QhaRunModel.volume x) Fe q pars = QhaRunModel.Raises "IndexError").
  { intros Fe q pars. unfold QhaRunModel.minimize_volume. rewrite PO. unfold QhaRunModel.set_target_pressure. destruct (TP q) as (p0 & ->). cbn [QhaRunModel.bind]. destruct (PolyModel.volume_at _ _ _); eauto. }
  assert (BAD : forall Fe pars, (forall k, k < QhaRunModel.nvol x -> Fe k = QhaRunModel.ha_F h i k) -> pars = None \/ pars = Some (np_polyfit (QhaRunModel.nvol x) (QhaRunModel.volume x) Fe (QhaRunModel.edeg s)) ->
    QhaRunModel.minimize_volume K np_polyfit roots (eos_parameters eos_fit) s x (QhaRunModel.volume x) Fe (nth j pl 0%R) pars = QhaRunModel.Raises "IndexError").
  { intros Fe pars EF EP. set (g := np_polyfit (QhaRunModel.nvol x) (QhaRunModel.volume x) Fe (QhaRunModel.edeg s)) in *.
    assert (LG : List.length g = S (energy_degree u)) by (apply (k_solver _ _ _ _ PR); assumption).
    transitivity (QhaRunModel.minimize_volume K np_polyfit roots (eos_parameters eos_fit) s x (QhaRunModel.volume x) Fe (nth j pl 0%R) (Some g)).
    { destruct EP as [->| ->]; [|reflexivity]. unfold QhaRunModel.minimize_volume. now rewrite PO. }
    destruct (TP (nth j pl 0%R)) as (p0 & Ep). apply (QhaEqProps.C69_no_minimum_raises K np_polyfit roots (eos_parameters eos_fit) s x (QhaRunModel.volume x) Fe (nth j pl 0%R) g MI) with (p0 := p0).
    - rewrite LG. exact RO.
    - exact Ep.
    - intros EX. apply (NO g).
      + apply (fits_document x _ (si (dt m) (nth i tl 0%R)) Fe I); [intros k Hk0; rewrite EF by lia; apply IS; [exact Hi|exact Hk0|now apply kelvin_points]|].
        apply QhaFitProps.fitted_solver; [exact (k_solver _ _ _ _ PR)|exact DV|exact DE|reflexivity].
      + intros p0' T0. replace p0' with p0; [exact EX|]. apply target in Ep. destruct positive_units as (P1 & P2 & P3). apply Rmult_eq_reg_r with (fst (ee m) / fst (ve m))%R.
        * unfold Rdiv in *. rewrite <- !Rmult_assoc. congruence.
        * apply Rgt_not_eq. apply Rdiv_lt_0_compat; lra. }
  unfold qha_results, QhaRunModel.run. pose proof HA as EH. unfold QhaRunModel.ha_run in EH.
  apply QhaRunProps.bind_ok in EH as (ct & Ect & EH). apply QhaRunProps.bind_ok in EH as (ph & Eph & EH). apply QhaRunProps.bind_ok in EH as (ce & Ece & EH).
  rewrite Ect. cbn [QhaRunModel.bind]. destruct (fine_grid 5 (5 / 100)) as [gr gc]. rewrite Eph. cbn [QhaRunModel.bind]. replace (QhaRunModel.kieffer_on s) with false by (symmetry; exact AC).
  assert (EF : forall i0, QhaRunModel.ha_F h i0 = StatMechModel.free_energy (List.length tl) (QhaRunModel.nvol x) (QhaRunModel.static_energy x)
     (fun i j => ce (StatMechModel.vibrational_free_energy (QhaRunModel.P K hplanck kboltzmann) (List.length tl) (fun i => ct (nth i tl 0%R)) ph (QhaRunModel.weight x) i j)) i0).
  { intros i0. assert (Q : forall a b : QhaRunModel.ha_results, QhaRunModel.Ok a = QhaRunModel.Ok b -> b = a) by congruence. rewrite (Q _ _ EH). reflexivity. }
  clear EH. change (QhaRunModel.qha_scheme s) with (scheme u). destruct scheme_known as [SC|SC]; rewrite SC; cbn [String.eqb Ascii.eqb Bool.eqb].
  - unfold QhaRunModel.run_thermodynamics_interpolation. rewrite Ece. cbn [QhaRunModel.bind]. erewrite (table_raises _ _ _ _ "IndexError" i j); [reflexivity| |exact Hi|exact Hj|].
    + intros i0 j0 _ _. apply EN.
    + apply BAD; [|right; reflexivity]. intros k Hk0. rewrite EF. field.
  - unfold QhaRunModel.run_frequency_interpolation. rewrite Ece. cbn [QhaRunModel.bind]. erewrite (table_raises _ _ _ _ "IndexError" i j); [reflexivity| |exact Hi|exact Hj|].
    + intros i0 j0 _ _. apply EN.
    + apply BAD; [|left; reflexivity]. intros k Hk0. now rewrite EF.
Qed.

(** ** Runs which complete *)
Hypotheses (AC : acoustic u = false) (MN : minimises c m).
Lemma ready : exists x lines r h, phonon_input y = QhaReaderModel.Ok (Some x) /\ inside x /\ report_input K eos_fit float_text s x hdr = QhaRunModel.Ok lines /\
  results x = QhaRunModel.Ok r /\ QhaRunModel.ha_run K hplanck kboltzmann s x tl = QhaRunModel.Ok h.
Proof.
  destruct input_ready as (x & lines & E & I & RI). pose proof I as (N & V & En & _).
  pose proof (offered_units hplanck yaml_load eos_fit float_text total_time special_case u f o w text (k_started _ _ _ _ PR)) as OU. destruct (QhaEqProps.C73_harmonic_completes K hplanck kboltzmann PK s x tl OU) as (h & HA).
  destruct (k_units _ _ _ _ PR) as (Me & Mee & Mv & Mve & Mf & Mt & Mp). destruct units_names as (N1 & N2 & N3).
  pose proof (ha_isotherm s c m x I given_few (k_energies _ _ _ _ PR) tl h HA Me Mf Mt) as IS. pose proof (distinct_volumes x I) as DV.
  assert (RR : exists r, results x = QhaRunModel.Ok r).
  { apply (QhaEqProps.C73_run_completes K hplanck kboltzmann PK); [exact OU|exact AC|]. destruct MN as [(MI & RO & MM)|(MI & MM)].
    - right. split; [exact MI|]. split; [exact (k_solver _ _ _ _ PR)|]. split; [exact DV|]. split; [rewrite N; exact (proj1 (k_degree _ _ _ _ PR))|]. split; [exact RO|].
      intros h' p0 HA' i j Hi Hj Ep. rewrite HA in HA'. injection HA' as <-.
      apply (MM tl pl (range_asked _ (k_temperatures _ _ _ _ PR)) (range_asked _ (k_pressures _ _ _ _ PR)) (nth i tl 0%R) (nth j pl 0%R)).
      + now apply nth_In.
      + now apply nth_In.
      + apply (fits_document x _ (si (dt m) (nth i tl 0%R)) (QhaRunModel.ha_F h i) I); [intros k Hk0; apply IS; [exact Hi|exact Hk0|now apply kelvin_points]|].
        apply QhaFitProps.fitted_solver; [exact (k_solver _ _ _ _ PR)|exact DV|rewrite N; exact (proj1 (k_degree _ _ _ _ PR))|reflexivity].
      + now apply target.
    - left. split; [exact MI|]. intros h' p0 HA' i j Hi Hj Ep Y HY. rewrite HA in HA'. injection HA' as <-. cbn [QhaRunModel.eos_function qha_settings].
      destruct (MM tl pl (range_asked _ (k_temperatures _ _ _ _ PR)) (range_asked _ (k_pressures _ _ _ _ PR)) (nth i tl 0%R) (nth j pl 0%R) p0 (QhaRunModel.volume x) Y) as (pars & EF).
      + now apply nth_In.
      + now apply nth_In.
      + now apply target.
      + intros k Hk0. split; [now apply V|]. rewrite HY by lia. rewrite IS; [reflexivity|exact Hi|exact Hk0|now apply kelvin_points].
      + unfold eos_parameters. rewrite N, EF. eexists. reflexivity. }
  destruct RR as (r & RR).
  exists x, lines, r, h. auto.
Qed.
Lemma computed_by (claim : list R -> list R -> QhaRunModel.results -> Prop) :
  (forall x r h, inside x -> results x = QhaRunModel.Ok r -> QhaRunModel.ha_run K hplanck kboltzmann s x tl = QhaRunModel.Ok h -> claim tl pl r) -> computed claim.
Proof.
  intros CL. destruct ready as (x & lines & r & h & E & I & RI & RR & HA).
  destruct (completes K hplanck kboltzmann yaml_load np_polyfit roots eos_fit float_text times total_time encode special_case u f o silent d a w PK text y _ _ _ _ _ _ _ _
    (k_started _ _ _ _ PR) (k_temperatures _ _ _ _ PR) (k_pressures _ _ _ _ PR) (k_yaml _ _ _ _ PR) crystal_readable (k_four _ _ _ _ PR) x lines r (k_energies _ _ _ _ PR) E I AC RI RR (k_free _ _ _ _ PR))
    as (v & ph & ls & M & _ & _ & S1 & _ & S2).
  exists v, (qha_result_file s (c_name c) tl pl r), tl, pl, r. split; [exact M|]. split; [exact S1|]. split; [apply stored|]. split; [exact (range_asked _ (k_temperatures _ _ _ _ PR))|].
  split; [exact (range_asked _ (k_pressures _ _ _ _ PR))|]. split; [exact (CL x r h I RR HA)|exact S2].
Qed.

(** ** What the tables hold *)
Notation n := (List.length (c_vols c)).
(** Mean of g over the modes at volume number k, in the energy unit. *)
Definition harmonic (g : R -> R) (k : nat) : R := (modes_at c (fun q b => si (df m) (c_F c q b k)) g / fst (de m))%R.
(** A polynomial of degree dg which fits the values Y at the volumes of the document. *)
Notation fits_at dg Y g := (QhaFitProps.fitted dg n (volume_of c) Y g).
Lemma fitted_same dg x Y Y' g : inside x -> (forall k, k < n -> Y k = Y' k) -> QhaFitProps.fitted dg (QhaRunModel.nvol x) (QhaRunModel.volume x) Y g -> fits_at dg Y' g.
Proof.
  intros (N & V & _) E. unfold QhaFitProps.fitted. rewrite N. intros (L & H); (split; [exact L|]); intros k Hk0; rewrite <- (H k Hk0); apply PolyProps.psum_ext.
  intros j Hj; unfold volume_of; rewrite V, E by exact Hj; reflexivity.
Qed.
Lemma positive_energy : (0 < fst (de m))%R.
Proof. destruct (k_units _ _ _ _ PR) as (Me & _). exact (energy_pos K PK _ _ Me). Qed.

(** Every entry: F = U - TS, with the static energy the same in U and F, and H and G
    exceed U and F by the work PV. *)
Theorem C96_saved : computed (fun temps press r => forall i j, i < List.length temps -> j < List.length press ->
  let T := si (dt m) (nth i temps 0%R) in let PV := (fst (dp m) * nth j press 0 * (fst (dv m) * QhaRunModel.VT r i j))%R in
  QhaRunModel.F r i j = (QhaRunModel.Utot r i j - T * QhaRunModel.Ent r i j / 1000)%R /\
  QhaRunModel.Fvib r i j = (QhaRunModel.Uzp r i j + QhaRunModel.Uth r i j - T * QhaRunModel.Ent r i j / 1000)%R /\
  (QhaRunModel.Utot r i j - QhaRunModel.Uzp r i j - QhaRunModel.Uth r i j = QhaRunModel.F r i j - QhaRunModel.Fvib r i j)%R /\
  (fst (de m) * (QhaRunModel.H r i j - QhaRunModel.Utot r i j) = PV)%R /\ (fst (de m) * (QhaRunModel.G r i j - QhaRunModel.F r i j) = PV)%R).
Proof.
  apply computed_by. intros x r h I RR HA i j Hi Hj T PV. destruct (k_units _ _ _ _ PR) as (Me & Mee & Mv & Mve & Mf & Mt & Mp). pose proof I as (N & V & _ & _ & _ & Nv & _).
  destruct (QhaRunProps.C45_enthalpy_and_gibbs K hplanck kboltzmann PK _ _ _ _ _ s x tl pl r (de m) (dp m) (dv m) RR Me Mp Mv i j Hi Hj) as (_ & EH & EG).
  assert (ID : QhaRunModel.F r i j = (QhaRunModel.Utot r i j - T * QhaRunModel.Ent r i j / 1000)%R /\
    QhaRunModel.Fvib r i j = (QhaRunModel.Uzp r i j + QhaRunModel.Uth r i j - T * QhaRunModel.Ent r i j / 1000)%R /\
    (QhaRunModel.Utot r i j - QhaRunModel.Uzp r i j - QhaRunModel.Uth r i j = QhaRunModel.F r i j - QhaRunModel.Fvib r i j)%R).
  { destruct scheme_known as [SC|SC].
    - apply (QhaRunProps.C45_thermodynamic_scheme K hplanck kboltzmann PK Hh Hk np_polyfit roots (eos_parameters eos_fit) (fun _ _ => 0%R) (fun _ _ => 0%R) s x tl pl r (dt m)); auto.
      + exact (k_solver _ _ _ _ PR).
      + split; [lia|now apply distinct_volumes].
      + rewrite N. exact (proj1 (k_degree _ _ _ _ PR)).
      + now apply kelvin_points.
    - apply (QhaRunProps.C45_frequency_scheme K hplanck kboltzmann PK Hh Hk np_polyfit roots (eos_parameters eos_fit) (fun _ _ => 0%R) (fun _ _ => 0%R) s x tl pl r (dt m)); auto. now apply kelvin_points. }
  destruct ID as (I1 & I2 & I3). auto 6.
Qed.

(** Minimisation by polynomials: at every temperature one polynomial fits the
    isotherm, and the volume at every pressure is the strict local minimum of F + PV. *)
Theorem C96_minimum : minim u = "poly" -> computed (fun temps press r => forall i, i < List.length temps ->
  exists g, fits_at (energy_degree u) (isotherm c m (si (dt m) (nth i temps 0%R))) g /\
  forall j, j < List.length press -> QhaFitProps.volume_is_minimum g (nth j press 0%R) (QhaRunModel.VT r i j) (ee m) (ve m) (dp m)).
Proof.
  intros MI. destruct MN as [(_ & RO & _)|(MI' & _)]; [|congruence].
  apply computed_by. intros x r h I RR HA i Hi. destruct (k_units _ _ _ _ PR) as (Me & Mee & Mv & Mve & Mf & Mt & Mp). pose proof I as (N & _).
  destruct (QhaFitProps.C81_polynomial_volume K hplanck kboltzmann PK np_polyfit roots (eos_parameters eos_fit) (fun _ _ => 0%R) (fun _ _ => 0%R) s x tl pl r h (ee m) (ve m) (dp m)) with (i := i) as (g & Fg & VM); auto.
  - exact (k_solver _ _ _ _ PR).
  - now apply distinct_volumes.
  - rewrite N. exact (proj1 (k_degree _ _ _ _ PR)).
  - exact scheme_known.
  - exists g. split; [|exact VM]. eapply fitted_same; [exact I| |exact Fg]. intros k Hk0. cbv beta.
    apply (ha_isotherm s c m x I given_few (k_energies _ _ _ _ PR) tl h HA Me Mf Mt); [exact Hi|exact Hk0|now apply kelvin_points].
Qed.

(** Scheme td: every quantity is the value at V(T,P) of a polynomial which fits the
    harmonic values at the volumes of the document. *)
Theorem C96_thermodynamic_columns : scheme u = "td" -> computed (fun temps press r => forall i, i < List.length temps -> (0 < si (dt m) (nth i temps 0%R))%R ->
  let T := si (dt m) (nth i temps 0%R) in
  exists gz gth gtot gs gf gv gc, fits_at (energy_degree u) (harmonic oz) gz /\ fits_at (energy_degree u) (harmonic (oe T)) gth /\
    fits_at (energy_degree u) (fun k => nth k (c_ens c) 0 + harmonic oz k + harmonic (oe T) k)%R gtot /\ fits_at (energy_degree u) (fun k => 1000 * harmonic (os T) k)%R gs /\
    fits_at (energy_degree u) (isotherm c m T) gf /\ fits_at (energy_degree u) (harmonic (ofr T)) gv /\ fits_at (energy_degree u) (fun k => 1000 * harmonic (oc T) k)%R gc /\
  forall j, j < List.length press -> let V := QhaRunModel.VT r i j in
    QhaRunModel.Uzp r i j = PolyModel.polyval V gz /\ QhaRunModel.Uth r i j = PolyModel.polyval V gth /\ QhaRunModel.Utot r i j = PolyModel.polyval V gtot /\
    QhaRunModel.Ent r i j = PolyModel.polyval V gs /\ QhaRunModel.F r i j = PolyModel.polyval V gf /\ QhaRunModel.Fvib r i j = PolyModel.polyval V gv /\ QhaRunModel.Cv r i j = PolyModel.polyval V gc).
Proof.
  intros SC. apply computed_by. intros x r h I RR HA i Hi HT T. destruct (k_units _ _ _ _ PR) as (Me & Mee & Mv & Mve & Mf & Mt & Mp). pose proof I as (N & V & En & _ & _ & Nv & Fq & _).
  destruct (QhaFitProps.C81_thermodynamic_columns K hplanck kboltzmann np_polyfit roots (eos_parameters eos_fit) (fun _ _ => 0%R) (fun _ _ => 0%R) s x tl pl r h) as ((gz & Gz & Ez) & CO); auto.
  { exact (k_solver _ _ _ _ PR). }
  { now apply distinct_volumes. }
  { rewrite N. exact (proj1 (k_degree _ _ _ _ PR)). }
  destruct (CO i) as (gth & gtot & gs & gf & gv & gc & G1 & G2 & G3 & G4 & G5 & G6 & G7). pose proof positive_energy as PE.
  pose proof (ha_isotherm s c m x I given_few (k_energies _ _ _ _ PR) tl h HA Me Mf Mt) as IS.
  assert (NV : StatMechModel.nv (QhaRunModel.frequencies x) = QhaRunModel.nvol x) by lia.
  assert (HM : forall k g, k < n -> QhaEqProps.mean_over_modes s x (df m) k g = (fst (de m) * harmonic g k)%R).
  { intros k g Hk0. unfold harmonic. rewrite <- (mean_document c x I given_few (k_energies _ _ _ _ PR) (fun q b => si (df m) (StatMechModel.freq (QhaRunModel.frequencies x) q b k))).
    - unfold QhaEqProps.mean_over_modes, QhaFitProps.mean_of. field. lra.
    - intros q b Hq Hb. rewrite Fq by (pose proof given_few; lia). unfold padded. destruct (Nat.ltb_spec q (c_given c)); [reflexivity|lia]. }
  assert (VA : forall k, k < n -> QhaRunModel.ha_Uzp h k = harmonic oz k /\ QhaRunModel.ha_Uth h i k = harmonic (oe T) k /\ QhaRunModel.ha_S h i k = (1000 * harmonic (os T) k)%R /\
    QhaRunModel.ha_Cv h i k = (1000 * harmonic (oc T) k)%R).
  { intros k Hk0. destruct (QhaEqProps.C71_values K hplanck kboltzmann PK Hh Hk s x tl h (dt m) (de m) (df m) NV HA Mt Me funit_means i k Hi ltac:(lia) HT) as (B1 & B2 & B3 & B4). fold T in B2, B3, B4.
    rewrite HM in B1, B2, B3, B4 by exact Hk0. repeat split; apply Rmult_eq_reg_l with (fst (de m)); lra. }
  assert (TO : forall k, k < n -> QhaRunModel.ha_Utot h i k = (nth k (c_ens c) 0 + harmonic oz k + harmonic (oe T) k)%R /\ QhaRunModel.ha_F h i k = (nth k (c_ens c) 0 + QhaRunModel.ha_Fvib h i k)%R).
  { intros k Hk0. destruct (QhaEqProps.C71_table K hplanck kboltzmann PK Hh Hk s x tl h (dt m) NV HA Mt i k Hi ltac:(lia) ltac:(lra)) as (B1 & B2 & _). destruct (VA k Hk0) as (<- & <- & _).
    rewrite <- En by (rewrite (k_energies _ _ _ _ PR); exact Hk0). auto. }
  exists gz, gth, gtot, gs, gf, gv, gc.
  split; [apply (fitted_same _ x _ _ _ I) with (2 := Gz); intros k Hk0; now destruct (VA k Hk0) as (A1 & A2 & A3 & A4)|].
  split; [apply (fitted_same _ x _ _ _ I) with (2 := G1); intros k Hk0; now destruct (VA k Hk0) as (A1 & A2 & A3 & A4)|].
  split; [apply (fitted_same _ x _ _ _ I) with (2 := G2); intros k Hk0; now destruct (TO k Hk0) as (A1 & A2)|].
  split; [apply (fitted_same _ x _ _ _ I) with (2 := G3); intros k Hk0; now destruct (VA k Hk0) as (A1 & A2 & A3 & A4)|].
  split; [apply (fitted_same _ x _ _ _ I) with (2 := G4); intros k Hk0; apply IS; [exact Hi|exact Hk0|lra]|].
  split; [apply (fitted_same _ x _ _ _ I) with (2 := G5); intros k Hk0|].
  { destruct (TO k Hk0) as (_ & A2). rewrite IS in A2 by (assumption || lra). fold T in A2. unfold isotherm in A2. unfold harmonic, oscillator_F in *. destruct (Req_EM_T T 0) as [Z|_]; [unfold T in Z; lra|]. change (fun w0 => ofr T w0) with (ofr T) in A2. lra. }
  split; [apply (fitted_same _ x _ _ _ I) with (2 := G6); intros k Hk0; now destruct (VA k Hk0) as (A1 & A2 & A3 & A4)|].
  intros j Hj V0. destruct (G7 j) as (E1 & E2 & E3 & E4 & E5 & E6). rewrite Ez. auto 10.
Qed.

(** Scheme freq: every quantity is the one of the oscillators with the frequencies
    interpolated at V(T,P), the static energy that of the fitted polynomial. *)
Definition frequency_fits (e : list R) (fp : nat -> nat -> list R) : Prop :=
  fits_at (energy_degree u) (fun k => nth k (c_ens c) 0%R) e /\ forall q b, q < c_given c -> b < c_na c * 3 -> fits_at (frequency_degree u) (fun k => si (df m) (c_F c q b k)) (fp q b).
Lemma document_fits x e fp : inside x -> QhaFitProps.frequency_fits s x (df m) e fp -> frequency_fits e fp.
Proof.
  intros I (A & B). pose proof I as (N & V & En & _ & _ & Nv & Fq & _). split.
  - apply (fitted_same _ x _ _ _ I) with (2 := A). intros k Hk0. apply En. rewrite (k_energies _ _ _ _ PR). exact Hk0.
  - intros q b Hq Hb. apply (fitted_same _ x _ _ _ I) with (2 := B q b). intros k Hk0. rewrite Fq by (pose proof given_few; lia). unfold padded. destruct (Nat.ltb_spec q (c_given c)); [reflexivity|lia].
Qed.
Theorem C96_frequency_columns : scheme u = "freq" -> computed (fun temps press r => exists e fp, frequency_fits e fp /\
  forall i j, i < List.length temps -> j < List.length press -> (0 < si (dt m) (nth i temps 0%R))%R ->
  let T := si (dt m) (nth i temps 0%R) in let V := QhaRunModel.VT r i j in let mean g := modes_at c (fun q b => PolyModel.polyval V (fp q b)) g in
  (fst (de m) * QhaRunModel.Uzp r i j = mean oz /\ fst (de m) * QhaRunModel.Uth r i j = mean (oe T) /\ fst (de m) * QhaRunModel.Ent r i j / 1000 = mean (os T) /\
   fst (de m) * QhaRunModel.Cv r i j / 1000 = mean (oc T) /\ fst (de m) * QhaRunModel.Fvib r i j = mean (ofr T) /\
   QhaRunModel.Utot r i j = PolyModel.polyval V e + QhaRunModel.Uzp r i j + QhaRunModel.Uth r i j /\ QhaRunModel.F r i j = PolyModel.polyval V e + QhaRunModel.Fvib r i j)%R).
Proof.
  intros SC. apply computed_by. intros x r h I RR HA. destruct (k_units _ _ _ _ PR) as (Me & Mee & Mv & Mve & Mf & Mt & Mp). pose proof I as (N & _).
  destruct (QhaFitProps.C81_frequency_columns K hplanck kboltzmann PK Hh Hk np_polyfit roots (eos_parameters eos_fit) (fun _ _ => 0%R) (fun _ _ => 0%R) s x tl pl r (dt m) (de m) (df m)) as (e & fp & FF & CO); auto.
  { exact (k_solver _ _ _ _ PR). }
  { now apply distinct_volumes. }
  { rewrite N. exact (proj1 (k_degree _ _ _ _ PR)). }
  { rewrite N. exact (proj2 (k_degree _ _ _ _ PR)). }
  exists e, fp. split; [exact (document_fits x e fp I FF)|]. intros i j Hi Hj HT T V mean. destruct (CO i j HT) as (C1 & C2 & C3 & C4 & C5 & C6 & C7).
  rewrite (mean_document c x I given_few (k_energies _ _ _ _ PR) _ (fun q b => PolyModel.polyval V (fp q b))) in C1, C2, C3, C4, C5 by reflexivity. auto 8.
Qed.

(** The moduli of a minimisation by polynomials. *)
Theorem C96_thermodynamic_moduli : scheme u = "td" -> minim u = "poly" -> energy_degree u < 5 -> computed (fun temps press r => forall i, i < List.length temps ->
  exists g, fits_at (energy_degree u) (isotherm c m (si (dt m) (nth i temps 0%R))) g /\ forall j, j < List.length press -> QhaRunModel.VT r i j <> 0%R ->
  QhaFitProps.moduli_from (fun v => PolyModel.polyval v g) (energy_degree u) (fst (ee m) / fst (ve m) / fst (dp m)) (QhaRunModel.VT r i j) (QhaRunModel.KT r i j) (QhaRunModel.Kp r i j)).
Proof.
  intros SC MI D5. apply computed_by. intros x r h I RR HA i Hi. destruct (k_units _ _ _ _ PR) as (Me & Mee & Mv & Mve & Mf & Mt & Mp). pose proof I as (N & _).
  destruct (QhaFitProps.C81_thermodynamic_moduli K hplanck kboltzmann np_polyfit roots (eos_parameters eos_fit) (fun _ _ => 0%R) (fun _ _ => 0%R) s x tl pl r h (ee m) (ve m) (dp m)) with (i := i) as (g & Fg & MM); auto.
  - exact (k_solver _ _ _ _ PR).
  - now apply distinct_volumes.
  - rewrite N. exact (proj1 (k_degree _ _ _ _ PR)).
  - exists g. split; [|exact MM]. eapply fitted_same; [exact I| |exact Fg]. intros k Hk0. cbv beta.
    apply (ha_isotherm s c m x I given_few (k_energies _ _ _ _ PR) tl h HA Me Mf Mt); [exact Hi|exact Hk0|now apply kelvin_points].
Qed.
Theorem C96_frequency_moduli : scheme u = "freq" -> minim u = "poly" -> energy_degree u < 5 -> computed (fun temps press r => exists e fp, frequency_fits e fp /\
  forall i j, i < List.length temps -> j < List.length press -> (0 < si (dt m) (nth i temps 0%R))%R -> QhaRunModel.VT r i j <> 0%R ->
  QhaFitProps.moduli_from (fun v => PolyModel.polyval v e + modes_at c (fun q b => PolyModel.polyval v (fp q b)) (ofr (si (dt m) (nth i temps 0))) / fst (de m))%R (energy_degree u)
    (fst (ee m) / fst (ve m) / fst (dp m)) (QhaRunModel.VT r i j) (QhaRunModel.KT r i j) (QhaRunModel.Kp r i j)).
Proof.
  intros SC MI D5. apply computed_by. intros x r h I RR HA. destruct (k_units _ _ _ _ PR) as (Me & Mee & Mv & Mve & Mf & Mt & Mp). pose proof I as (N & _).
  destruct (QhaFitProps.C81_frequency_moduli K hplanck kboltzmann PK Hh Hk np_polyfit roots (eos_parameters eos_fit) (fun _ _ => 0%R) (fun _ _ => 0%R) s x tl pl r (dt m) (de m) (df m) (ee m) (ve m) (dp m)) as (e & fp & FF & CO); auto.
  { exact (k_solver _ _ _ _ PR). }
  { now apply distinct_volumes. }
  { rewrite N. exact (proj1 (k_degree _ _ _ _ PR)). }
  { rewrite N. exact (proj2 (k_degree _ _ _ _ PR)). }
  exists e, fp. split; [exact (document_fits x e fp I FF)|]. intros i j Hi Hj HT NZ. pose proof (CO i j Hi Hj HT NZ) as MM.
  match type of MM with QhaFitProps.moduli_from ?Fg _ _ _ _ _ => match goal with |- QhaFitProps.moduli_from ?Fg' _ _ _ _ _ => replace Fg' with Fg; [exact MM|] end end.
  extensionality v. unfold QhaFitProps.frequency_free_energy. now rewrite (mean_document c x I given_few (k_energies _ _ _ _ PR) _ (fun q b => PolyModel.polyval v (fp q b))) by reflexivity.
Qed.

(** Minimisation by an equation of state: V, KT and K' are the parameters of the
    curve which, less the work, fits the isotherm best; its slope at V is the
    pressure and its curvature the modulus. *)
Definition best_curves : Prop := forall tg g nv V Y e0 k0 k1 v0 errors, EvEosModel.set_eos_type tg = Some g -> eos_fit tg nv V Y = QhaRunModel.Ok ((e0, k0, k1, v0), errors) ->
  forall a0 b0 c0 w0, (PolyProps.psum (fun k => (g (V k) e0 k0 k1 v0 - Y k) ^ 2) nv <= PolyProps.psum (fun k => (g (V k) a0 b0 c0 w0 - Y k) ^ 2) nv)%R.
(** The choices of the option --eos, as the log names them and as curves E(V) *)
Inductive formulation : string -> string -> EvEosModel.ev_form -> Prop :=
| form_M : formulation "M" "Murnaghan" EvEosModel.ev_murnaghan
| form_BM : formulation "BM" "3rd-order Birch-Murnaghan" EvEosModel.ev_birchmurnaghan
| form_PT : formulation "PT" "3rd-order Poirier-Tarantola" EvEosModel.ev_pouriertarantola
| form_V : formulation "V" "3rd-order Vinet" EvEosModel.ev_vinet.
Lemma formulated : exists name form, formulation (eos_tag u) name form /\ EvEosModel.set_eos_type tag = Some form /\ eos_formulation (eos_tag u) = name.
Proof.
  destruct (choices_offered _ _ _ _ _ (k_started _ _ _ _ PR)) as (_ & _ & C). cbn [In] in C.
  destruct C as [<-|[<-|[<-|[<-|[]]]]]; eexists _, _; (split; [constructor|]); split; reflexivity.
Qed.
(** V and KT are volume and modulus of a curve of this form: less the work, it has the
    slope zero at V. *)
Definition equilibrium (form : EvEosModel.ev_form) (p V kt : R) : Prop :=
  exists e0 k0 k1, (kt * fst (dp m) = k0 * fst (ee m) / fst (ve m))%R /\
    ((0 < V)%R -> k0 <> 0%R -> k1 <> 0%R -> k1 <> 1%R -> exists p0 F1, (p0 * fst (ee m) / fst (ve m) = fst (dp m) * p)%R /\
      locally V (fun v => is_derive (fun w => (form w e0 k0 k1 V - p0 * w)%R) v (F1 v)) /\ (- F1 V = p0)%R /\ exists F2, is_derive F1 V F2 /\ (V * F2 = k0)%R).
Theorem C96_eos : minim u = "eos" -> computed (fun temps press r => forall i j, i < List.length temps -> j < List.length press ->
  exists name form, formulation (eos_tag u) name form /\ equilibrium form (nth j press 0%R) (QhaRunModel.VT r i j) (QhaRunModel.KT r i j)).
Proof.
  intros MI. apply computed_by. intros x r h I RR HA i j Hi Hj. destruct (k_units _ _ _ _ PR) as (Me & Mee & Mv & Mve & Mf & Mt & Mp). destruct formulated as (name & form & FN & TF & _).
  destruct (QhaEqProps.C69_eos_equilibrium K hplanck kboltzmann PK np_polyfit roots (eos_parameters eos_fit) (fun _ _ => 0%R) (fun _ _ => 0%R) s x tl pl r (ee m) (ve m) (dp m)) with (i := i) (j := j) as (e0 & k0 & k1 & form' & TF' & Q); auto.
  - cbn [QhaRunModel.eos_function qha_settings]. congruence.
  - exact scheme_known.
  - cbn [QhaRunModel.eos_function qha_settings] in TF'. rewrite TF in TF'. injection TF' as <-. exists name, form. split; [exact FN|]. exists e0, k0, k1. exact Q.
Qed.
Theorem C96_best_curve : minim u = "eos" -> best_curves -> computed (fun temps press r => exists name form, formulation (eos_tag u) name form /\
  forall i j, i < List.length temps -> j < List.length press -> let distance Y := PolyProps.psum (fun k => (Y k - isotherm c m (si (dt m) (nth i temps 0)) k) ^ 2)%R n in
  exists p0 e0 k0, (p0 * fst (ee m) / fst (ve m) = fst (dp m) * nth j press 0)%R /\ (QhaRunModel.KT r i j * fst (dp m) = k0 * fst (ee m) / fst (ve m))%R /\
  forall a0 b0 c0 v0, (distance (fun k => form (volume_of c k) e0 k0 (QhaRunModel.Kp r i j) (QhaRunModel.VT r i j) - p0 * volume_of c k) <=
                       distance (fun k => form (volume_of c k) a0 b0 c0 v0 - p0 * volume_of c k))%R).
Proof.
  intros MI BC. apply computed_by. intros x r h I RR HA. destruct (k_units _ _ _ _ PR) as (Me & Mee & Mv & Mve & Mf & Mt & Mp). destruct formulated as (name & form & FN & TF & _). exists name, form. split; [exact FN|].
  intros i j Hi Hj distance. pose proof I as (N & V & _).
  destruct (QhaFitProps.C81_eos_volume K hplanck kboltzmann PK np_polyfit roots (eos_parameters eos_fit) (fun _ _ => 0%R) (fun _ _ => 0%R) s x tl pl r h (ee m) (ve m) (dp m) form) with (i := i) (j := j) as (p0 & e0 & k0 & A & B & C); auto.
  - intros tg g nv V0 Y e0 k0 k1 v0 TG EF. unfold eos_parameters in EF. destruct (eos_fit tg nv V0 Y) as [[pars errors]|] eqn:Q; [|discriminate EF].
    apply (BC tg g nv V0 Y e0 k0 k1 v0 errors TG). rewrite Q. cbn [QhaRunModel.bind fst] in EF. congruence.
  - exact scheme_known.
  - exists p0, e0, k0. split; [exact A|]. split; [exact B|]. intros a0 b0 c0 v0. specialize (C a0 b0 c0 v0). unfold QhaFitProps.squares in C. rewrite N in C. unfold distance.
    match type of C with (?A1 <= ?B1)%R => match goal with |- (?A2 <= ?B2)%R => replace A2 with A1; [replace B2 with B1; [exact C|]|] end end;
    apply PolyProps.psum_ext; intros k Hk0; rewrite V by exact Hk0; rewrite (ha_isotherm s c m x I given_few (k_energies _ _ _ _ PR) tl h HA Me Mf Mt); (reflexivity || assumption || (now apply kelvin_points)).
Qed.

(** With fifty temperatures or more: thermal expansion from the volumes at two
    neighbouring temperatures, Cp - Cv = a^2 K V T, the Grueneisen parameter and KS. *)
Theorem C96_expansion : computed (fun temps press r => 50 <= List.length temps -> forall i j, i < List.length temps -> j < List.length press ->
  let T k := si (dt m) (nth k temps 0%R) in let al := QhaRunModel.alphaV r i j in let kt := (fst (dp m) * QhaRunModel.KT r i j)%R in let v := (fst (dv m) * QhaRunModel.VT r i j)%R in
  let cap x := (fst (de m) * x / 1000)%R in
  (S i < List.length temps -> QhaRunModel.VT r i j <> 0%R -> QhaRunModel.VT r (S i) j = (QhaRunModel.VT r i j + QhaRunModel.VT r i j * al * (T (S i) - T i))%R) /\
  cap (QhaRunModel.CpCv r i j) = (al ^ 2 * kt * v * T i)%R /\ QhaRunModel.Cp r i j = (QhaRunModel.Cv r i j + QhaRunModel.CpCv r i j)%R /\
  (QhaRunModel.Cv r i j <> 0%R -> QhaRunModel.gruneisen r i j * cap (QhaRunModel.Cv r i j) = al * kt * v /\ QhaRunModel.KS r i j * QhaRunModel.Cv r i j = QhaRunModel.KT r i j * QhaRunModel.Cp r i j)%R /\
  QhaRunModel.KS r i j = (QhaRunModel.KT r i j * (1 + al * QhaRunModel.gruneisen r i j * T i))%R /\
  (0 <= QhaRunModel.KT r i j -> 0 <= QhaRunModel.VT r i j -> 0 < QhaRunModel.Cv r i j -> QhaRunModel.Cv r i j <= QhaRunModel.Cp r i j /\ QhaRunModel.KT r i j <= QhaRunModel.KS r i j)%R).
Proof.
  apply computed_by. intros x r h I RR HA L i j Hi Hj T al kt v cap. destruct (k_units _ _ _ _ PR) as (Me & Mee & Mv & Mve & Mf & Mt & Mp).
  pose proof (QhaRunProps2.C70_Cp_minus_Cv K hplanck kboltzmann PK _ _ _ _ _ s x tl pl r (dt m) (de m) (dp m) (dv m) RR L Mt Me Mp Mv i j Hi Hj) as (A1 & A2).
  pose proof (QhaRunProps2.C70_gruneisen K hplanck kboltzmann PK _ _ _ _ _ s x tl pl r (dt m) (de m) (dp m) (dv m) RR L Mt Me Mp Mv i j Hi Hj) as (A3 & _ & A4).
  pose proof (QhaRunProps2.C70_ratio K hplanck kboltzmann PK _ _ _ _ _ s x tl pl r (dt m) (de m) (dp m) (dv m) RR L Mt Me Mp Mv i j Hi Hj) as A5.
  pose proof (QhaRunProps2.C70_order K hplanck kboltzmann PK _ _ _ _ _ s x tl pl r (dt m) (de m) (dp m) (dv m) RR L Mt Me Mp Mv i j Hi Hj) as A6.
  destruct (QhaRunProps2.C47_forward_differences K hplanck kboltzmann _ _ _ _ _ s x tl pl r (dt m) i j RR L Mt) as (A7 & _).
  split; [|split; [exact A1|split; [exact A2|split; [auto|split; [exact A4|]]]]].
  - intros Hs NZ. apply A7; [exact Hs|exact NZ|]. destruct (range_asked _ (k_temperatures _ _ _ _ PR)) as (ST & _). intros Q. rewrite !ST in Q by lia. rewrite S_INR in Q.
    pose proof (temperature_pos _ _ Mt) as PT. pose proof (k_temperatures _ _ _ _ PR) as RO. unfold range_ok in RO. destruct (temperatures u) as [[lo hi] step]. cbn [fst snd] in Q.
    assert (NS : step <> 0%R) by (destruct RO as [(H1 & _)|(H1 & _)]; lra). unfold si in Q. assert (Z : (fst (dt m) * step = 0)%R) by lra. apply Rmult_integral in Z as [Z|Z]; [lra|contradiction].
  - apply A6. now apply kelvin_points.
Qed.
(** With fewer, as by default, none of these is calculated, yet all are written: zero
    for the expansion, Cp, Cp - Cv and the Grueneisen parameter, KT for KS. *)
Theorem C96_few_temperatures_refuted : computed (fun temps press r => List.length temps < 50 -> forall i j, i < List.length temps -> j < List.length press ->
  QhaRunModel.alphaV r i j = 0%R /\ QhaRunModel.CpCv r i j = 0%R /\ QhaRunModel.Cp r i j = 0%R /\ QhaRunModel.gruneisen r i j = 0%R /\ QhaRunModel.KS r i j = QhaRunModel.KT r i j).
Proof. apply computed_by. intros x r h I RR HA L i j _ _. exact (QhaRunProps2.C46_short_grid K hplanck kboltzmann _ _ _ _ _ s x tl pl r RR L i j). Qed.

(** ** What the log tells *)
Lemma log_ready : exists v x lines r ph ls, run_command = (CliModel.Ok tt, v) /\ CliModel.fs v out = CliModel.File (encode (qha_result_file s (c_name c) tl pl r)) /\
  CliModel.fs v lf = CliModel.File (RunLogProps.page (full_log np_polyfit times total_time u f o d lines ph x ls)) /\ inside x /\ report_input K eos_fit float_text s x hdr = QhaRunModel.Ok lines /\
  QhaRunModel.phonons_Hz K s x = QhaRunModel.Ok ph /\ report_results K float_text s tl pl r = QhaRunModel.Ok ls.
Proof.
  destruct ready as (x & lines & r & h & E & I & RI & RR & HA).
  destruct (completes K hplanck kboltzmann yaml_load np_polyfit roots eos_fit float_text times total_time encode special_case u f o silent d a w PK text y _ _ _ _ _ _ _ _
    (k_started _ _ _ _ PR) (k_temperatures _ _ _ _ PR) (k_pressures _ _ _ _ PR) (k_yaml _ _ _ _ PR) crystal_readable (k_four _ _ _ _ PR) x lines r (k_energies _ _ _ _ PR) E I AC RI RR (k_free _ _ _ _ PR))
    as (v & ph & ls & M & PH & RS & S1 & S2 & _).
  exists v, x, lines, r, ph, ls. auto 10.
Qed.
Definition range_told (v : CliModel.world) (title : string) (r : R * R * R) (unit : string) : Prop :=
  exists l1 l2 l3 rule, logged v [title; rule; l1; l2; l3] /\ says l1 [Word "-"; Word "min:"; Decimals 2 (fst (fst r)); Word unit] /\
    says l2 [Word "-"; Word "max:"; Decimals 2 (snd (fst r)); Word unit] /\ says l3 [Word "-"; Word "step:"; Decimals 2 (snd r); Word unit].
Lemma word_of z l : In z l -> List.Forall (fun t => no_space t /\ t <> "" /\ t <> "|") l -> says z [Word z].
Proof. intros Iz Fz. rewrite List.Forall_forall in Fz. destruct (Fz z Iz) as (A & B & C). now apply says_word. Qed.
Lemma told_range v r title unit before after : (forall b, contains (qha_settings_lines u) b -> logged v b) -> says unit [Word unit] ->
  qha_settings_lines u = before ++ (title :: long_rule :: range_lines r unit) ++ after -> range_told v title r unit.
Proof.
  intros SO U E. unfold range_lines in E. destruct r as [[lo hi] step]. exists (range_line "min:" lo unit), (range_line "max:" hi unit), (range_line "step:" step unit), long_rule. split; [apply SO; rewrite E; now eexists before, after|].
  assert (RL : forall label x0, no_space label -> label <> "" -> label <> "|" -> says (range_line label x0 unit) [Word "-"; Word label; Decimals 2 x0; Word unit]).
  { intros label x0 A B C. unfold range_line. change (" - " +++ ?r) with (String " " ("-" +++ " " +++ r)). apply says_blank.
    eapply says_space'; [apply (says_word "-"); (reflexivity || discriminate)| |reflexivity].
    eapply says_space'; [apply says_pad_right, says_word; assumption| |reflexivity].
    eapply says_space'; [apply (says_right 8 2 (Fin x0)); lia|exact U|reflexivity]. }
  split; [|split]; apply RL; (reflexivity || discriminate).
Qed.
(** The log of a run which completed: the settings, the crystal, for every pressure a
    table of what the result file holds, with Cp - Cv in J/(mol K), and where it is. *)
Theorem C96_log : exists v h temps press r, run_command = (CliModel.Ok tt, v) /\ CliModel.fs v out = CliModel.File (encode h) /\ holds h temps press r /\
  (logged v [" - scheme: " +++ (if String.eqb (scheme u) "freq" then "frequency interpolation" else "thermodynamics interpolation")] /\
   (minim u = "eos" -> exists name form, formulation (eos_tag u) name form /\ logged v [" - volume minimization: Equation of State (EoS)"; " - EoS formulation: " +++ name]) /\
   (minim u = "poly" -> logged v [" - volume minimization: polynomial functions"]) /\
   range_told v "Temperature settings" (temperatures u) (tunit_q u) /\ range_told v "Pressure settings" (pressures u) (punit_q u)) /\
  (logged v ["Reading input file: " +++ f] /\ logged v ["Job: " +++ c_name c]) /\
  (List.length temps < 50 -> logged v [" - WARNING! The calculation of:"; "   * volumetric thermal expansion coefficient"; "   * isobaric heat capacity"; "   * adiabatic bulk modulus"; "   requires at least 50 points of temperatures."]) /\
  (forall j, j < List.length press -> exists ls, logged v (("# Results at " +++ float_text (nth j press 0%R) +++ " " +++ punit_q u) :: bar_line :: "" :: ls) /\
    table_block (result_names s) (List.length temps) (fun i cs => cs = [Decimals 1 (nth i temps 0%R); Decimals 6 (QhaRunModel.VT r i j); Digits 8 (QhaRunModel.alphaV r i j);
      Decimals 3 (QhaRunModel.KT r i j); Decimals 3 (QhaRunModel.KS r i j); Decimals 6 (N_A K * (fst (de m) * QhaRunModel.CpCv r i j / 1000))%R]) ls) /\
  logged v ["Calculated data exported to " +++ out].
Proof.
  destruct log_ready as (v & x & lines & r & ph & ls & M & S1 & S2 & I & RI & PH & RS). exists v, (qha_result_file s (c_name c) tl pl r), tl, pl, r. split; [exact M|]. split; [exact S1|]. split; [apply stored|].
  assert (P : forall b, contains (full_log np_polyfit times total_time u f o d lines ph x ls) b -> logged v b) by (intros b B; eexists; split; [exact S2|exact B]). clear S1 S2.
  assert (SO : forall b, contains (qha_settings_lines u) b -> logged v b) by (intros b B; apply P; unfold full_log, opening; apply contains_left, contains_skip, contains_left; exact B).
  destruct (units_offered _ _ _ _ _ (k_started _ _ _ _ PR)) as (Ue & Uv & Uf & Ut & Up).
  assert (Wt : says (tunit_q u) [Word (tunit_q u)]) by (apply (word_of _ _ Ut); repeat constructor; (reflexivity || discriminate)).
  assert (Wp : says (punit_q u) [Word (punit_q u)]) by (apply (word_of _ _ Up); repeat constructor; (reflexivity || discriminate)).
  destruct (k_units _ _ _ _ PR) as (Me & _).
  split; [split; [|split; [|split; [|split]]]|split; [split|split; [|split]]].
  - apply SO. unfold qha_settings_lines. apply contains_skip, contains_left. unfold approach_lines. now eexists [], _.
  - intros MI. destruct formulated as (name & form & FN & _ & <-). exists (eos_formulation (eos_tag u)), form. split; [exact FN|].
    apply SO. unfold qha_settings_lines. apply contains_skip, contains_left. unfold approach_lines. apply contains_skip, contains_left. rewrite MI. now eexists [], [].
  - intros MI. apply SO. unfold qha_settings_lines. apply contains_skip, contains_left. unfold approach_lines. apply contains_skip, contains_left. rewrite MI. now eexists [], [].
  - eapply (told_range v _ _ _ ([""; "Calculator: Quasi-Harmonic Approximation"; ""; "Quasi-Harmonic Approximation approach"; long_rule] ++ approach_lines u ++
      [""; "Polynomial fitting settings (degree)"; long_rule; degree_line "energy:" (QhaRunModel.edeg s); degree_line "frequency:" (QhaRunModel.fdeg s); ""]) _ SO Wt).
    unfold qha_settings_lines. rewrite <- !app_assoc. reflexivity.
  - eapply (told_range v _ _ _ ([""; "Calculator: Quasi-Harmonic Approximation"; ""; "Quasi-Harmonic Approximation approach"; long_rule] ++ approach_lines u ++
      [""; "Polynomial fitting settings (degree)"; long_rule; degree_line "energy:" (QhaRunModel.edeg s); degree_line "frequency:" (QhaRunModel.fdeg s); ""; "Temperature settings"; long_rule] ++
      range_lines (temperatures u) (QhaRunModel.tunit s) ++ [""]) _ SO Wp).
    unfold qha_settings_lines. rewrite <- !app_assoc. reflexivity.
  - apply P. unfold full_log, told_reading. apply contains_skip, contains_left. now eexists [], _.
  - apply P. unfold full_log. apply contains_skip, contains_skip, contains_left. revert RI. unfold report_input. destruct (input_pressures _ _ _ _ _) as [[ps pars]|]; [|discriminate 1]. cbn [QhaRunModel.bind]. intros X.
    match type of X with QhaRunModel.Ok ?b = _ => assert (EQ : b = lines) by congruence end. subst lines. rewrite <- ?app_assoc. apply contains_left. now eexists [_], _.
  - intros L. apply P. unfold full_log. do 3 apply contains_skip. apply contains_left. unfold run_lines. rewrite !RunLogProps.voices_app. do 2 apply contains_skip. unfold work_end. rewrite RunLogProps.voices_app. apply contains_skip.
    unfold finalize_events. apply Nat.ltb_lt in L. rewrite L, !RunLogProps.voices_app. apply contains_skip, contains_left. cbn [map RunLogProps.voices List.concat app RunLogProps.voice].
    now eexists [], [_].
  - intros j Hj.
    assert (CE : exists ce, QhaRunModel.from_eunit K s = QhaRunModel.Ok ce) by (apply (QhaEqProps.conversion_total _ _ (QhaRunModel.eunit s) _ (de m) (1000 / N_A K, 0)%R (energy_converts K PK)); [exact Me|reflexivity]).
    destruct CE as (ce & CE).
    destruct (results_text K PK float_text s) with (tl := tl) (pl := pl) (r := r) (de := de m) (ce := ce) as (tx & TX & RT); [| |exact Me|exact CE|].
    { cbn [QhaRunModel.tunit qha_settings]. cbn [In] in Ut. destruct Ut as [<-|[<-|[]]]; reflexivity. }
    { cbn [QhaRunModel.punit qha_settings]. cbn [In] in Up. destruct Up as [<-|[<-|[]]]; reflexivity. }
    rewrite RS in TX. injection TX as <-. destruct (RT j Hj) as (lj & C & TT). exists lj. split; [|exact TT]. apply P. unfold full_log. do 4 apply contains_skip. apply contains_left. exact C.
  - apply P. unfold full_log. do 5 apply contains_skip. now eexists [], _.
Qed.
(** The table of the input in a run with polynomials: pressure, volume, energy. *)
Theorem C96_log_input : minim u = "poly" -> exists v, run_command = (CliModel.Ok tt, v) /\ exists ls, logged v ls /\
  table_block (with_unit "Pressure" (punit_q u) ++ with_unit "Volume" (vunit_q u +++ "^3") ++ with_unit "Energy" (eunit_q u)) n
    (fun i cs => exists t, slope_at n (fun k => nth k (c_ens c) 0%R) (volume_of c) i t /\
       cs = [Decimals 3 (- (t * fst (ee m) / fst (ve m)) / fst (dp m))%R; Decimals 6 (volume_of c i); Digits 12 (nth i (c_ens c) 0%R)]) ls.
Proof.
  intros MI. destruct log_ready as (v & x & lines & r & ph & ls & M & S1 & S2 & I & RI & PH & RS). exists v. split; [exact M|].
  destruct (k_units _ _ _ _ PR) as (Me & Mee & Mv & Mve & Mf & Mt & Mp). destruct units_names as (N1 & N2 & N3). pose proof I as (N & V & En & _). rewrite (k_energies _ _ _ _ PR) in En. pose proof (k_four _ _ _ _ PR) as L4.
  destruct (C88_input K eos_fit float_text s x N1 N2 N3 hdr (ee m) (ve m) (dp m)) as (lines' & RL & _ & _ & lt & C & TT); [|exact Mee|exact Mve|exact Mp|lia|exact (distinct_volumes x I)|].
  { unfold QhaRunModel.eos_on. cbn [QhaRunModel.minimization qha_settings]. now rewrite MI. }
  rewrite RI in RL. assert (EQ : lines' = lines) by congruence. subst lines'. exists lt. split.
  - eexists. split; [exact S2|]. unfold full_log. do 2 apply contains_skip. apply contains_left. exact C.
  - destruct TT as (head & bar & rows & -> & Hd & Rw). exists head, bar, rows. split; [reflexivity|]. split; [exact Hd|]. rewrite N in Rw.
    assert (Q : forall k, In k (seq 0 n) -> k < n) by (intros k Hk0; apply in_seq in Hk0; lia). clear - Rw V En Q L4.
    assert (SL : forall i t, i < n -> slope_at n (QhaRunModel.static_energy x) (QhaRunModel.volume x) i t -> slope_at n (fun k => nth k (c_ens c) 0%R) (volume_of c) i t).
    { intros i t Hi (A & B & C). unfold slope_at, chord_slope, parabola_slope, volume_of in *. split; [|split].
      - intros Z. specialize (A Z). rewrite !V, !En in A by lia. exact A.
      - intros Z1 Z2. specialize (B Z1 Z2). rewrite !V, !En in B by lia. exact B.
      - intros Z1 Z2. destruct (C Z1 Z2) as (a0 & b0 & c0 & H1 & H2). exists a0, b0, c0. rewrite <- V by lia. split; [|exact H2]. intros k Hk0. rewrite <- V, <- En by (cbn [In] in Hk0; lia). now apply H1. }
    induction Rw as [|k l ks ls0 (cs & (t & ST & ->) & A) Rw IH]; constructor; [|apply IH; intros k0 Hk0; apply Q; now right].
    pose proof (Q k (or_introl eq_refl)) as Hk0. eexists. split; [exists t; split; [now apply SL|reflexivity]|]. unfold volume_of. rewrite <- V, <- En by exact Hk0. exact A.
Qed.
(** Degrees and units in the log *)
Theorem C96_log_settings : exists v, run_command = (CliModel.Ok tt, v) /\
  (exists l1 l2 rule, logged v ["Polynomial fitting settings (degree)"; rule; l1; l2] /\
    says l1 [Word "-"; Word "energy:"; ReportSpec.Whole (Z.of_nat (energy_degree u))] /\ says l2 [Word "-"; Word "frequency:"; ReportSpec.Whole (Z.of_nat (frequency_degree u))]) /\
  exists l1 l2 l3 l4 l5 rule fr, logged v ["Measurement units"; rule; l1; l2; l3; l4; l5] /\ says l1 [Word "-"; Word "energy:"; Word (eunit_q u)] /\ says l2 [Word "-"; Word "lenght:"; Word (vunit_q u)] /\
    says l3 [Word "-"; Word "frequency:"; Word fr] /\ (fr = funit_q u \/ funit_q u = "cm-1" /\ fr = "cm^-1") /\ says l4 [Word "-"; Word "temperature:"; Word (tunit_q u)] /\ says l5 [Word "-"; Word "pressure:"; Word (punit_q u)].
Proof.
  destruct log_ready as (v & x & lines & r & ph & ls & M & S1 & S2 & I & RI & PH & RS). exists v. split; [exact M|].
  assert (SO : forall b, contains (qha_settings_lines u) b -> logged v b) by (intros b B; eexists; split; [exact S2|]; unfold full_log, opening; apply contains_left, contains_skip, contains_left; exact B).
  destruct (units_offered _ _ _ _ _ (k_started _ _ _ _ PR)) as (Ue & Uv & Uf & Ut & Up).
  assert (UL : forall label un, no_space label -> label <> "" -> label <> "|" -> says un [Word un] -> says (unit_line label un) [Word "-"; Word label; Word un]).
  { intros label un A B C U. unfold unit_line. change (" - " +++ ?r) with (String " " ("-" +++ " " +++ r)). apply says_blank.
    eapply says_space'; [apply (says_word "-"); (reflexivity || discriminate)| |reflexivity].
    eapply says_space'; [apply says_pad_right, says_word; assumption|exact U|reflexivity]. }
  assert (DL : forall label k, no_space label -> label <> "" -> label <> "|" -> says (degree_line label k) [Word "-"; Word label; ReportSpec.Whole (Z.of_nat k)]).
  { intros label k A B C. unfold degree_line. change (" - " +++ ?r) with (String " " ("-" +++ " " +++ r)). apply says_blank.
    eapply says_space'; [apply (says_word "-"); (reflexivity || discriminate)| |reflexivity].
    eapply says_space'; [apply says_pad_right, says_word; assumption|apply says_int|reflexivity]. }
  split.
  - exists (degree_line "energy:" (energy_degree u)), (degree_line "frequency:" (frequency_degree u)), long_rule. split; [|split; apply DL; (reflexivity || discriminate)].
    apply SO. unfold qha_settings_lines. do 2 apply contains_skip. now eexists [_], _.
  - exists (unit_line "energy:" (eunit_q u)), (unit_line "lenght:" (vunit_q u)), (unit_line "frequency:" (if String.eqb (funit_q u) "cm-1" then "cm^-1" else funit_q u)), (unit_line "temperature:" (tunit_q u)), (unit_line "pressure:" (punit_q u)), long_rule,
      (if String.eqb (funit_q u) "cm-1" then "cm^-1" else funit_q u).
    split; [apply SO; unfold qha_settings_lines; do 6 apply contains_skip; now eexists [_], []|].
    split; [apply UL; try (reflexivity || discriminate); apply (word_of _ _ Ue); repeat constructor; (reflexivity || discriminate)|].
    split; [apply UL; try (reflexivity || discriminate); apply (word_of _ _ Uv); repeat constructor; (reflexivity || discriminate)|].
    split; [apply UL; try (reflexivity || discriminate); cbn [In] in Uf; destruct Uf as [<-|[<-|[<-|[]]]]; apply says_word; (reflexivity || discriminate)|].
    split; [destruct (String.eqb_spec (funit_q u) "cm-1"); auto|].
    split; [apply UL; try (reflexivity || discriminate); apply (word_of _ _ Ut); repeat constructor; (reflexivity || discriminate)|].
    apply UL; try (reflexivity || discriminate); apply (word_of _ _ Up); repeat constructor; (reflexivity || discriminate).
Qed.
(** With an equation of state: the parameters fitted to the static energies, with
    their errors, and a pressure for each volume. With Murnaghan and Vinet it is minus
    the slope of the fitted curve; with the two others it is above it under compression
    and below it under expansion. *)
Theorem C96_log_eos : minim u = "eos" -> exists v name form V E e0 k0 k1 v0 se sk sk1 sv, run_command = (CliModel.Ok tt, v) /\ formulation (eos_tag u) name form /\
  (forall k, k < n -> V k = volume_of c k /\ E k = nth k (c_ens c) 0%R) /\ eos_fit tag n V E = QhaRunModel.Ok ((e0, k0, k1, v0), (se, sk, sk1, sv)) /\
  exists ls a1 a2 a3 a4, logged v (ls ++ [""; "EoS fitting parameters for static energy vs volume data:"; a1; a2; a3; a4]) /\
    QhaReportProps.parameter float_text a1 "E0" e0 se /\ QhaReportProps.parameter float_text a2 "K0" (QhaReportProps.in_unit (ee m) (ve m) (dp m) k0) (QhaReportProps.shown_in_unit (ee m) (ve m) (dp m) sk) /\
    QhaReportProps.parameter float_text a3 "K'" k1 sk1 /\ QhaReportProps.parameter float_text a4 "V0" v0 sv /\
    table_block (with_unit "Pressure" (punit_q u) ++ with_unit "Volume" (vunit_q u +++ "^3") ++ with_unit "Energy" (eunit_q u)) n
      (fun i cs => exists p, cs = [Decimals 3 p; Decimals 6 (volume_of c i); Digits 12 (nth i (c_ens c) 0%R)] /\
         ((0 < v0)%R -> (0 < volume_of c i)%R -> (0 < k0)%R -> k1 <> 0%R -> k1 <> 1%R -> forall t, is_derive (fun z => form z e0 k0 k1 v0) (volume_of c i) t ->
          let slope := (- (t * fst (ee m) / fst (ve m)) / fst (dp m))%R in
          (In (eos_tag u) ["M"; "V"] -> p = slope) /\ (In (eos_tag u) ["BM"; "PT"] -> (volume_of c i < v0 -> slope < p)%R /\ (v0 < volume_of c i -> p < slope)%R))) ls.
Proof.
  intros MI. destruct log_ready as (v & x & lines & r & ph & ls & M & S1 & S2 & I & RI & PH & RS). destruct formulated as (name & form & FN & TF & _).
  pose proof I as (N & V & En & _). rewrite (k_energies _ _ _ _ PR) in En. destruct (k_units _ _ _ _ PR) as (Me & Mee & Mv & Mve & Mf & Mt & Mp). destruct units_names as (N1 & N2 & N3). destruct positive_units as (P1 & P2 & P3).
  destruct TB as [MI'|(_ & FI)]; [congruence|].
  destruct (FI (QhaRunModel.volume x) (fun k => (QhaRunModel.static_energy x k + 0 * QhaRunModel.volume x k)%R)) as ((((e0 & k0) & k1) & v0) & e1 & e2 & e3 & e4 & EF & EE).
  { intros k Hk0. rewrite V, En by exact Hk0. split; [reflexivity|]. unfold volume_of. ring. }
  exists v, name, form, (QhaRunModel.volume x), (fun k => (QhaRunModel.static_energy x k + 0 * QhaRunModel.volume x k)%R), e0, k0, k1, v0, e1, e2, e3, e4. split; [exact M|]. split; [exact FN|].
  split; [intros k Hk0; rewrite V, En by exact Hk0; split; [reflexivity|]; unfold volume_of; ring|]. split; [exact EF|].
  assert (CE : forall l v e, In e [e1; e2; e3; e4] -> exists t, concise float_text l v e = QhaRunModel.Ok t) by (intros l v1 e He; destruct (EE e He); now apply concise_ok).
  destruct (CE "E0" e0 e1 ltac:(cbn; auto)) as (l1 & C1). destruct (CE "K'" k1 e3 ltac:(cbn; auto)) as (l3 & C3). destruct (CE "V0" v0 e4 ltac:(cbn; auto)) as (l4 & C4).
  assert (C2 : exists t, concise float_text "K0" (QhaReportProps.in_unit (ee m) (ve m) (dp m) k0) (QhaReportProps.shown_in_unit (ee m) (ve m) (dp m) e2) = QhaRunModel.Ok t).
  { destruct (EE e2 ltac:(cbn; auto)) as (G1 & G2). apply concise_ok.
    - destruct e2; cbn; congruence.
    - intros z. destruct e2 as [z2| |]; cbn; try discriminate. intros [= <-]. specialize (G2 z2 eq_refl). unfold in_unit.
      apply Rmult_le_pos; [apply Rmult_le_pos; [apply Rmult_le_pos; lra|]|]; apply Rlt_le, Rinv_0_lt_compat; assumption. }
  destruct C2 as (l2 & C2).
  destruct (eos_report K eos_fit float_text s x N1 N2 N3 (ee m) (ve m) (dp m) e0 k0 k1 v0 e1 e2 e3 e4) with (h := hdr) (form := form) (a := l1) (b := l2) (c := l3) (d := l4) as (lines' & RL & lt & CT & TT); try assumption.
  { unfold QhaRunModel.eos_on. cbn [QhaRunModel.minimization qha_settings]. now rewrite MI. }
  { cbn [QhaRunModel.eos_function qha_settings]. rewrite N. exact EF. }
  rewrite RI in RL. assert (EQ : lines' = lines) by congruence. subst lines'. exists lt, l1, l2, l3, l4. split; [eexists; split; [exact S2|]; unfold full_log; do 2 apply contains_skip; apply contains_left; exact CT|].
  do 4 (split; [assumption|]). destruct TT as (head & bar & rows & -> & Hd & Rw). exists head, bar, rows. split; [reflexivity|]. split; [exact Hd|]. rewrite N in Rw.
  assert (Q : forall k, In k (seq 0 n) -> k < n) by (intros k Hk0; apply in_seq in Hk0; lia).
  assert (PP : forall k p, k < n -> EvEosModel.pressure tag e0 k0 k1 v0 (volume_of c k) = Some p -> (0 < v0)%R -> (0 < volume_of c k)%R -> (0 < k0)%R -> k1 <> 0%R -> k1 <> 1%R -> forall t, is_derive (fun z => form z e0 k0 k1 v0) (volume_of c k) t ->
    (In (eos_tag u) ["M"; "V"] -> p = - t)%R /\ (In (eos_tag u) ["BM"; "PT"] -> (volume_of c k < v0 -> - t < p)%R /\ (v0 < volume_of c k -> p < - t)%R)).
  { intros k p Hk0 EP H0 H1 H2 H3 H4 t DT. split; intros HT.
    - assert (TG : tag = "murnaghan" \/ tag = "vinet") by (cbn [In] in HT; destruct HT as [<-|[<-|[]]]; auto).
      destruct (EvEosProps.C19_pressure_consistent tag form e0 k0 k1 v0 (volume_of c k) TG H0 H1 H3 H4 TF) as (q & E1 & D1). rewrite EP in E1. injection E1 as ->.
      pose proof (is_derive_unique _ _ _ D1) as U1. rewrite (is_derive_unique _ _ _ DT) in U1. lra.
    - assert (TG : tag = "birchmurnaghan" \/ tag = "pouriertarantola") by (cbn [In] in HT; destruct HT as [<-|[<-|[]]]; auto).
      assert (IN : forall W, W <> v0 -> volume_of c k = W -> (W < v0 -> - t < p)%R /\ (v0 < W -> p < - t)%R).
      { intros W NW EW. rewrite EW in *. destruct (EvEosProps.C19_pressure_inconsistent tag form e0 k0 k1 v0 W p t TG H0 H1 H2 NW TF DT EP) as (_ & A & B). auto. }
      split; intros L; apply (IN (volume_of c k)); (reflexivity || exact L || lra). }
  assert (SCL : forall z, (- (z * fst (ee m) / fst (ve m)) / fst (dp m) = QhaReportProps.in_unit (ee m) (ve m) (dp m) (- z))%R) by (intros z; unfold QhaReportProps.in_unit, Rdiv; ring).
  assert (MONO : forall y1 y2, (y1 < y2)%R -> (QhaReportProps.in_unit (ee m) (ve m) (dp m) y1 < QhaReportProps.in_unit (ee m) (ve m) (dp m) y2)%R).
  { intros y1 y2 L. unfold QhaReportProps.in_unit, Rdiv. apply Rmult_lt_compat_r; [now apply Rinv_0_lt_compat|]. apply Rmult_lt_compat_r; [now apply Rinv_0_lt_compat|]. now apply Rmult_lt_compat_r. }
  clear - Rw V En Q PP SCL MONO.
  induction Rw as [|k l ks ls0 (cs & (p & EP & ->) & A) Rw IH]; constructor; [|apply IH; intros k0' Hk0; apply Q; now right].
  pose proof (Q k (or_introl eq_refl)) as Hk0. cbn [QhaRunModel.eos_function qha_settings] in EP. rewrite V in EP by exact Hk0. eexists. split.
  - exists (QhaReportProps.in_unit (ee m) (ve m) (dp m) p). split; [reflexivity|]. intros H0 H1 H2 H3 H4 t DT. destruct (PP k p Hk0 EP H0 H1 H2 H3 H4 t DT) as (B1 & B2). cbv zeta. rewrite SCL. split.
    + intros HT. now rewrite (B1 HT).
    + intros HT. destruct (B2 HT) as (B3 & B4). split; intros L; apply MONO; auto.
  - unfold volume_of. rewrite <- V, <- En by exact Hk0. exact A.
Qed.
(** In the frequency scheme: for every q-point a block with one line for every mode:
    R^2 of its polynomial, and a verdict. *)
Theorem C96_log_fits : scheme u = "freq" -> exists v, run_command = (CliModel.Ok tt, v) /\ forall q, q < c_given c ->
  exists lines last, logged v ((" - Band # " +++ int_text (Z.of_nat q)) :: lines ++ [last]) /\
  Forall2 (fun j l => exists r2 verd, says l (mode_cells j r2 verd) /\
    let W k := si (df m) (c_F c q j k) in let mean := (PolyProps.psum W n / INR n)%R in
    ((exists k, k < n /\ W k <> mean) -> forall g, fits_at (frequency_degree u) W g ->
     let share := (PolyProps.psum (fun k => (W k - PolyModel.polyval (volume_of c k) g) ^ 2) n / PolyProps.psum (fun k => (W k - mean) ^ 2) n)%R in
     r2 = (1 - share)%R /\ verdict share verd)) (seq 0 (c_na c * 3)) lines.
Proof.
  intros SC. destruct log_ready as (v & x & lines & r & ph & ls & M & S1 & S2 & I & RI & PH & RS). exists v. split; [exact M|]. intros q Hq.
  pose proof I as (N & V & _ & B & Md & Nv & Fq & _ & _). destruct (QhaRunProps.phonons_shape K s x ph PH) as (Q1 & Q2 & Q3).
  pose proof (QhaFitProps.phonons_value K PK s x ph (df m) PH funit_means) as FQ. pose proof given_few as GF.
  destruct (C88_fits s x np_polyfit ph q) as (lns & last & CT & RW); [rewrite Q1, B; lia|].
  exists lns, last. split.
  - eexists. split; [exact S2|]. unfold full_log. do 3 apply contains_skip. apply contains_left. unfold run_lines. rewrite !RunLogProps.voices_app. apply contains_skip, contains_left.
    unfold work_start. change (QhaRunModel.qha_scheme s) with (scheme u). rewrite SC. cbn [String.eqb Ascii.eqb Bool.eqb]. unfold frequency_start. rewrite !RunLogProps.voices_app. apply contains_skip, contains_left.
    unfold say. rewrite map_app, RunLogProps.voices_app. apply contains_left. rewrite hears. exact CT.
  - rewrite Q2, Md in RW. assert (Q : forall k, In k (seq 0 (c_na c * 3)) -> k < c_na c * 3) by (intros k Hk0; apply in_seq in Hk0; lia). revert Q.
    clear CT. induction RW as [|j l js ls0 (r2 & verd & A & C) RW IH]; intros Q; [constructor|]. constructor; [|apply IH; intros k Hk0; apply Q; now right].
    exists r2, verd. split; [exact A|]. intros W mean (k & Hk0 & NC) g FG share. pose proof (Q j (or_introl eq_refl)) as Hj.
    assert (FW : forall i, i < n -> StatMechModel.freq ph q j i = W i).
    { intros i Hi. rewrite FQ, Fq by lia. unfold padded. destruct (Nat.ltb_spec q (c_given c)); [reflexivity|lia]. }
    assert (MW : PolyProps.mean (StatMechModel.freq ph q j) n = mean) by (unfold PolyProps.mean, mean; f_equal; apply PolyProps.psum_ext; exact FW).
    assert (DV : PolyfitProofs.distinct n (QhaRunModel.volume x)) by (rewrite <- N; exact (distinct_volumes x I)).
    destruct (k_solver _ _ _ _ PR n (QhaRunModel.volume x) (StatMechModel.freq ph q j) (frequency_degree u) DV (proj2 (k_degree _ _ _ _ PR))) as (LG & LS).
    rewrite N in C. destruct C as (_ & C1 & C2).
    + exact Hj.
    + intros CC. apply NC. rewrite <- FW, <- MW by exact Hk0. now apply CC.
    + unfold coefficients. rewrite N. exact LS.
    + assert (SH : share = unexplained (coefficients s x np_polyfit ph q j) (S (QhaRunModel.fdeg s)) (QhaRunModel.volume x) (StatMechModel.freq ph q j) n); [|rewrite SH; now split].
      unfold share, unexplained, PolyProps.ss. rewrite MW. unfold Rdiv. apply f_equal2; [|apply f_equal]; apply PolyProps.psum_ext; intros i Hi; rewrite FW by exact Hi; [|reflexivity]. f_equal. f_equal. unfold volume_of. rewrite <- V by exact Hi.
      rewrite <- (PolyfitProofs.poly_as_polyval g (S (frequency_degree u))) by (rewrite (proj1 FG); lia). unfold coefficients. rewrite N.
      apply (PolyfitProofs.least_squares_unique _ _ (S (frequency_degree u)) (QhaRunModel.volume x) (StatMechModel.freq ph q j) n DV); [pose proof (proj2 (k_degree _ _ _ _ PR)); lia| |exact LS].
      intros e He. refine (eq_trans _ (proj2 FG e ltac:(lia))). apply PolyProps.psum_ext. intros i0 Hi0. rewrite PolyfitProofs.poly_as_polyval by (rewrite (proj1 FG); lia). unfold volume_of. rewrite FW, V by exact Hi0. reflexivity.
Qed.
End Calculable.
End Physics.

Print Assumptions C96_acoustic_refuted.
Print Assumptions C96_no_minimum_refuted.
Print Assumptions C96_saved.
Print Assumptions C96_minimum.
Print Assumptions C96_thermodynamic_columns.
Print Assumptions C96_frequency_columns.
Print Assumptions C96_thermodynamic_moduli.
Print Assumptions C96_frequency_moduli.
Print Assumptions C96_eos.
Print Assumptions C96_best_curve.
Print Assumptions C96_expansion.
Print Assumptions C96_few_temperatures_refuted.
Print Assumptions C96_log.
Print Assumptions C96_log_input.
Print Assumptions C96_log_settings.
Print Assumptions C96_log_eos.
Print Assumptions C96_log_fits.
