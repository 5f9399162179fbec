(** C96: concrete documents and runs which meet the hypotheses of the theorems of
    QhaCommandProps and QhaCommandProps2. *)
From Coq Require Import Reals String Ascii List Bool Arith ZArith Lia Lra.
From Flocq Require Import Core.
From Verif Require QhaReaderModel QhaRunModel QhaEqProps QhaFitProps CliModel CitationsModel RunLogProps StatMechModel StatMechSpec EvEosModel PolyModel PolyProps PolyfitProofs.
From Verif Require Import Py DecimalModel UnitsModel UnitsSpec UnitsProps GridModel ReportModel ReportSpec H5Model PhononInputModel PhononInputProps HaCommandModel HaCommandProps
  QhaCommandModel QhaCommandProps QhaCommandProps2.
Import ListNotations.
Open Scope string_scope.
Open Scope list_scope.
Open Scope nat_scope.

(** Four volumes; of two announced q-points one is given, with three modes. *)
Definition doc_frequency (n : Z) : QhaReaderModel.yaml := QhaReaderModel.YMap [("frequency", QhaReaderModel.YList [QhaReaderModel.YInt n; QhaReaderModel.YInt n; QhaReaderModel.YInt n; QhaReaderModel.YInt n])].
Definition doc (vols : QhaReaderModel.yaml) (ens : list R) : QhaReaderModel.yaml := QhaReaderModel.YMap
  [("job", QhaReaderModel.YStr "MgO "); ("natom", QhaReaderModel.YInt 1); ("qpoints", QhaReaderModel.YInt 2);
   ("supercell", QhaReaderModel.YList [QhaReaderModel.YList [QhaReaderModel.YInt 2; QhaReaderModel.YInt 0; QhaReaderModel.YInt 0];
     QhaReaderModel.YList [QhaReaderModel.YInt 0; QhaReaderModel.YInt 1; QhaReaderModel.YInt 0]; QhaReaderModel.YList [QhaReaderModel.YInt 0; QhaReaderModel.YInt 0; QhaReaderModel.YInt 1]]);
   ("volume", vols); ("energy", QhaReaderModel.YList (map QhaReaderModel.YNum ens));
   ("phonon", QhaReaderModel.YList [QhaReaderModel.YMap [("weight", QhaReaderModel.YInt 3); ("band", QhaReaderModel.YList [doc_frequency 0; doc_frequency 100; doc_frequency 200])]])].
Definition four : list R := [10; 11; 12; 13]%R.
Definition good (ens : list R) : QhaReaderModel.yaml := doc (QhaReaderModel.YList (map QhaReaderModel.YNum four)) ens.
Definition good_F : nat -> nat -> nat -> R := fun _ b _ => nth b [0; 100; 200]%R 0%R.
Definition good_crystal (ens : list R) : crystal :=
  {| c_name := "MgO"; c_na := 1; c_nq := 2; c_given := 1; c_cell := ((2, 0, 0), (0, 1, 0), (0, 0, 1))%R; c_vols := four; c_ens := ens; c_wt := fun _ => 3%R; c_F := good_F |}.
Lemma good_said ens : says_crystal (good ens) (good_crystal ens).
Proof.
  split.
  - reflexivity.
  - split; [reflexivity|]. split; [reflexivity|]. split; [eexists; split; reflexivity|].
    eexists. split; [reflexivity|]. split; [reflexivity|]. intros [|i] q E; [|destruct i; discriminate]. injection E as <-.
    eexists. eexists. split; [reflexivity|]. split; [reflexivity|]. split; [|split; reflexivity].
    intros [|[|[|j]]] b E; try (destruct j; discriminate); injection E as <-; eexists; eexists;
    (split; [reflexivity|]; split; [reflexivity|]; split; [reflexivity|]); intros [|[|[|[|k]]]] Hk; try (cbn in Hk; lia); reflexivity.
  - cbn. lia.
  - reflexivity.
  - change (QhaReaderModel.get_float (QhaReaderModel.YList (map QhaReaderModel.YNum ens)) = QhaReaderModel.Ok (QhaReaderModel.Array (map Num ens))). unfold QhaReaderModel.get_float.
    assert (E : QhaReaderModel.all_some (map QhaReaderModel.element (map QhaReaderModel.YNum ens)) = Some (map Num ens)); [|now rewrite E].
    induction ens as [|e ens IH]; [reflexivity|]. cbn [map QhaReaderModel.all_some QhaReaderModel.element]. now rewrite IH.
  - eexists _, _, _. split; [reflexivity|]. repeat split; eexists _, _, _; (split; [reflexivity|repeat split]).
  - cbn. lra.
Qed.
Definition choose (sch mn : string) (ac : bool) (t p : R * R * R) : qha_options :=
  {| scheme := sch; minim := mn; acoustic := ac; temperatures := t; pressures := p; energy_degree := 2; frequency_degree := 1;
     eos_tag := "BM"; eunit_q := "Ha"; vunit_q := "A"; funit_q := "cm-1"; tunit_q := "K"; punit_q := "GPa" |}.
Definition sixty : R * R * R := (0, 590, 10)%R.
Definition three : R * R * R := (300, 400, 50)%R.
Definition pressed : R * R * R := (0, 5, 5)%R.
Definition pressless : R * R * R := (0, 0, 1)%R.
Lemma good_started sch mn ac t p text : In sch ["freq"; "td"] -> In mn ["poly"; "eos"] -> QhaCommandProps.started (choose sch mn ac t p) "run/MgO.yaml" None (sample_disk text) text.
Proof. intros A B. split; [cbn; tauto|split; [exact A|split; [exact B|cbn; tauto]]|reflexivity|discriminate|discriminate]. Qed.
Definition good_si : in_si :=
  {| de := (Ha_J codata, 0)%R; ee := (Ha_J codata, 0)%R; dv := ((Angstrom_m codata) ^ 3, 0)%R; ve := ((Angstrom_m codata) ^ 3, 0)%R;
     df := (100 * c_ms codata, 0)%R; dt := (1, 0)%R; dp := (10 ^ 9, 0)%R |}.
Lemma good_units sch mn ac t p : units_mean codata (choose sch mn ac t p) good_si.
Proof. repeat split; reflexivity. Qed.
Definition good_range (t : R * R * R) : Prop := t = sixty \/ t = three.
Lemma asked_kelvin t temps : good_range t -> asked t temps -> forall x, In x temps -> (0 <= x)%R.
Proof.
  intros G (A & _) x X. destruct (In_nth _ _ 0%R X) as (k & Hk & <-). rewrite A by exact Hk. pose proof (pos_INR k). destruct G as [->| ->]; cbn; lra.
Qed.
Lemma good_prepared sch mn ac t p ens : In sch ["freq"; "td"] -> In mn ["poly"; "eos"] -> good_range t -> p = pressed \/ p = pressless -> List.length ens = 4 ->
  prepared codata (fun _ => QhaReaderModel.Parsed (good ens)) PolyfitProofs.gram_schmidt_fit (choose sch mn ac t p) "run/MgO.yaml" None (CliModel.Ok false) (sample_disk "text") "text" (good ens) (good_crystal ens) good_si.
Proof.
  intros A B G P0 L. split.
  - now apply good_started.
  - destruct G as [->| ->]; cbn; lra.
  - destruct P0 as [->| ->]; cbn; lra.
  - reflexivity.
  - apply good_said.
  - cbn. lia.
  - exact L.
  - cbn [c_vols good_crystal four]. repeat constructor; cbn [In]; lra.
  - cbn. lia.
  - apply PolyfitProofs.gram_schmidt_solver.
  - left. reflexivity.
  - apply good_units.
  - intros temps AT x X. pose proof (asked_kelvin t temps G AT x X). cbn [dt good_si]. unfold si. cbn. lra.
Qed.
(** Frequencies which do not change with the volume: each isotherm is the static
    energy and a constant. *)
Lemma good_isotherm h k ens T : exists C, forall i, isotherm h k (good_crystal ens) good_si T i = (nth i ens 0 + C)%R.
Proof. exists (modes_at (good_crystal ens) (fun q b => si (df good_si) (c_F (good_crystal ens) q b 0)) (oscillator_F h k T) / fst (de good_si))%R. intros i. reflexivity. Qed.
Lemma fitted_exactly d n X Y g e : PolyfitProofs.distinct n X -> d < n -> List.length e <= S d -> QhaFitProps.fitted d n X Y g -> (forall j, j < n -> Y j = PolyModel.polyval (X j) e) ->
  forall v, PolyModel.polyval v g = PolyModel.polyval v e.
Proof.
  intros D L LE (LG & N) E v. rewrite <- (PolyfitProofs.poly_as_polyval g (S d)), <- (PolyfitProofs.poly_as_polyval e (S d)) by lia.
  apply (PolyfitProofs.least_squares_unique _ _ (S d) X Y n D); [lia| |].
  - intros k Hk. refine (eq_trans _ (N k ltac:(lia))). apply PolyProps.psum_ext. intros j _. now rewrite PolyfitProofs.poly_as_polyval by lia.
  - intros k Hk. rewrite (PolyProps.psum_ext _ (fun _ => 0%R)); [apply PolyProps.psum_0|]. intros j Hj. rewrite PolyfitProofs.poly_as_polyval, E by assumption. ring.
Qed.
Lemma four_distinct : PolyfitProofs.distinct 4 (fun k => nth k four 0%R).
Proof.
  intros i j Hi Hj E. unfold four in E. destruct i as [|[|[|[|i]]]]; try lia; destruct j as [|[|[|[|j]]]]; try lia; cbn in E; lra.
Qed.
Lemma parabola sch mn ac t p h k T g (z : R) : fits_isotherm h k (choose sch mn ac t p) (good_crystal (map (fun e => z * e)%R [1; 0; 1; 4]%R)) good_si T g ->
  exists C, (forall v, PolyModel.polyval v (PolyModel.deriv g) = z * (2 * v - 22))%R /\ (forall v, PolyModel.polyval v (PolyModel.deriv (PolyModel.deriv g)) = 2 * z)%R /\
  forall v, PolyModel.polyval v g = (z * (v - 11) ^ 2 + C)%R.
Proof.
  intros H. destruct (good_isotherm h k (map (fun e => z * e)%R [1; 0; 1; 4]%R) T) as (C & EC). unfold fits_isotherm in H.
  assert (X : forall v, PolyModel.polyval v g = PolyModel.polyval v [z * 121 + C; - (22 * z); z]%R).
  { apply (fitted_exactly 2 4 (volume_of (good_crystal (map (fun e => z * e)%R [1; 0; 1; 4]%R))) (isotherm h k (good_crystal (map (fun e => z * e)%R [1; 0; 1; 4]%R)) good_si T)); try exact H.
    - exact four_distinct.
    - lia.
    - cbn. lia.
    - intros j Hj. rewrite EC. destruct j as [|[|[|[|j]]]]; try lia; cbn; ring. }
  exists C. split; [|split].
  - intros v. rewrite (QhaEqProps.deriv_ext _ _ X). cbn. ring.
  - intros v. rewrite (QhaEqProps.deriv_ext _ _ (QhaEqProps.deriv_ext _ _ X)). cbn. ring.
  - intros v. rewrite X. cbn. ring.
Qed.
Definition bowl : list R := map (fun e => 1 * e)%R [1; 0; 1; 4]%R.
Definition hill : list R := map (fun e => -1 * e)%R [1; 0; 1; 4]%R.
(** The fit of the equation of state of QhaFitProps, with standard errors. *)
Definition fit_with_errors (tag : string) (n : nat) (V Y : nat -> R) : QhaRunModel.outcome ((R * R * R * R) * (shown * shown * shown * shown)) :=
  QhaRunModel.bind (QhaFitProps.bm_fit tag n V Y) (fun q => QhaRunModel.Ok (q, (Fin (1/100), Fin (1/1000), Fin (1/10), Inf)%R)).
Lemma bowl_minimises sch h k t p : minimises h k QhaEqProps.linear_roots fit_with_errors (choose sch "poly" false t p) (good_crystal bowl) good_si.
Proof.
  left. split; [reflexivity|]. split; [intros g L; apply QhaEqProps.linear_roots_exact; exact L|].
  intros temps press _ _ t0 p0 g _ _ F0 p1 _. destruct (parabola _ _ _ _ _ _ _ _ _ 1%R F0) as (C & D1 & D2 & _). exists (11 - p1 / 2)%R. rewrite D1, D2. lra.
Qed.
Definition birch : list R := map (fun v => EvEosModel.ev_birchmurnaghan v 0 1 4 11)%R four.
Lemma accepted V Y C : (forall i, i < 4 -> V i = nth i four 0%R /\ Y i = (nth i birch 0 + C)%R) -> QhaFitProps.bm_fit "birchmurnaghan" 4 V Y = QhaRunModel.Ok (C, 1, 4, 11)%R.
Proof.
  intros H. unfold QhaFitProps.bm_fit. assert (SH : forall v c, (EvEosModel.ev_birchmurnaghan v c 1 4 11 = c + EvEosModel.ev_birchmurnaghan v 0 1 4 11)%R) by (intros; unfold EvEosModel.ev_birchmurnaghan; ring).
  assert (NB : forall i, i < 4 -> nth i birch 0%R = (EvEosModel.ev_birchmurnaghan (nth i four 0) 0 1 4 11)%R) by (intros i Hi; destruct i as [|[|[|[|i]]]]; try reflexivity; lia).
  destruct (H 0 ltac:(lia)) as (V0 & Y0). rewrite V0, Y0, NB by lia. cbv zeta.
  replace (EvEosModel.ev_birchmurnaghan (nth 0 four 0) 0 1 4 11 + C - EvEosModel.ev_birchmurnaghan (nth 0 four 0) 0 1 4 11)%R with C by ring.
  replace (forallb _ _) with true; [reflexivity|]. symmetry. apply forallb_forall. intros i Hi. apply in_seq in Hi. destruct (H i ltac:(lia)) as (Vi & Yi). rewrite Vi, Yi, NB, SH by lia.
  unfold StatMechModel.Req_b. destruct (Req_EM_T _ _) as [|X]; [reflexivity|]. exfalso. apply X. ring.
Qed.
Lemma birch_tabulates sch ac t p : tabulates fit_with_errors (choose sch "eos" ac t p) (good_crystal birch).
Proof.
  right. split; [reflexivity|]. intros V E H. change (List.length (c_vols (good_crystal birch))) with 4 in *. change (eos_function_of (eos_tag (choose sch "eos" ac t p))) with "birchmurnaghan".
  unfold fit_with_errors. rewrite (accepted V E 0%R).
  - cbn [QhaRunModel.bind]. eexists _, _, _, _, _. split; [reflexivity|]. intros e [<-|[<-|[<-|[<-|[]]]]]; (split; [discriminate|]); intros z Z; try discriminate; injection Z as <-; lra.
  - intros i Hi. destruct (H i Hi) as (A & B). split; [exact A|]. rewrite B. cbn [c_ens good_crystal]. ring.
Qed.
Lemma pressless_points press : asked pressless press -> forall p, In p press -> p = 0%R.
Proof.
  intros (A & Up & _) p Hp. destruct (In_nth _ _ 0%R Hp) as (k & Hk & <-). rewrite A by exact Hk. cbn [fst snd pressless] in *. specialize (proj1 (Up ltac:(lra) k) Hk). intros B.
  destruct k as [|k]; [cbn; ring|]. exfalso. rewrite S_INR in B. pose proof (pos_INR k). lra.
Qed.
Lemma zero_target p0 : (p0 * fst (ee good_si) / fst (ve good_si) = 0)%R -> p0 = 0%R.
Proof.
  intros EP. cbn [ee ve good_si fst] in EP. assert (A : (0 < Ha_J codata)%R) by apply codata_positive. assert (B : (0 < Angstrom_m codata ^ 3)%R) by (apply pow_lt, codata_positive).
  apply Rmult_integral in EP as [EP|EP]; [|apply Rinv_0_lt_compat in B; lra]. apply Rmult_integral in EP. lra.
Qed.
Lemma birch_minimises sch h k t : minimises h k QhaEqProps.linear_roots fit_with_errors (choose sch "eos" false t pressless) (good_crystal birch) good_si.
Proof.
  right. split; [reflexivity|]. intros temps press _ AP t0 p p0 V Y _ Hp EP H. pose proof (pressless_points press AP p Hp) as ->.
  assert (Z : p0 = 0%R) by (apply zero_target; rewrite EP; ring).
  destruct (good_isotherm h k birch (si (dt good_si) t0)) as (C & EC). change (List.length (c_vols (good_crystal birch))) with 4 in *. change (eos_function_of (eos_tag (choose sch "eos" false t pressless))) with "birchmurnaghan".
  unfold fit_with_errors. rewrite (accepted V Y C); [cbn [QhaRunModel.bind]; eauto|].
  intros i Hi. destruct (H i Hi) as (A & B). split; [exact A|]. rewrite B, Z, EC. ring.
Qed.
Lemma fit_best : best_curves fit_with_errors.
Proof.
  intros tg g nv V Y e0 k0 k1 v0 errors TF E. unfold fit_with_errors in E. destruct (QhaFitProps.bm_fit tg nv V Y) as [q|] eqn:EB; [|discriminate]. cbn [QhaRunModel.bind] in E. injection E as -> _.
  exact (QhaFitProps.bm_least_squares tg g nv V Y e0 k0 k1 v0 TF EB).
Qed.

(** ** The runs *)
Definition run_of (y : QhaReaderModel.parsed) (u : qha_options) :=
  qha_main codata (6 / 10 ^ 34) (1 / 10 ^ 23) (fun _ => y) PolyfitProofs.gram_schmidt_fit QhaEqProps.linear_roots fit_with_errors (fun _ => "0.0") (fun _ => "    0.01") "  0.06" (fun h => "h5")
    (fun _ _ => no_input) u "run/MgO.yaml" None true false (CliModel.Ok false) (sample_disk "text").
Lemma constants_positive : (0 < 6 / 10 ^ 34)%R /\ (0 < 1 / 10 ^ 23)%R.
Proof. exact QhaEqProps.sys_positive. Qed.
Lemma sixty_points temps : asked sixty temps -> List.length temps = 60.
Proof.
  intros (_ & Up & _). cbn [fst snd sixty] in Up. specialize (Up ltac:(lra)). pose proof (Up 59) as A. pose proof (Up 60) as B.
  replace (INR 59) with 59%R in A by (simpl; lra). replace (INR 60) with 60%R in B by (simpl; lra). assert (59 < List.length temps) by (apply A; lra).
  destruct (Nat.lt_ge_cases 60 (List.length temps)) as [C|C]; [apply B in C; lra|lia].
Qed.
Lemma three_points temps : asked three temps -> List.length temps = 3.
Proof.
  intros (_ & Up & _). cbn [fst snd three] in Up. specialize (Up ltac:(lra)). pose proof (Up 2) as A. pose proof (Up 3) as B.
  replace (INR 2) with 2%R in A by (simpl; lra). replace (INR 3) with 3%R in B by (simpl; lra). assert (2 < List.length temps) by (apply A; lra).
  destruct (Nat.lt_ge_cases 3 (List.length temps)) as [C|C]; [apply B in C; lra|lia].
Qed.
(** With either scheme the volume at zero pressure is the one with the lowest energy. *)
Example C96_instance sch : In sch ["freq"; "td"] -> exists v h temps press r, run_of (QhaReaderModel.Parsed (good bowl)) (choose sch "poly" false sixty pressed) = (CliModel.Ok tt, v) /\
  CliModel.fs v "run/MgO_QHA.hdf5" = CliModel.File "h5" /\ holds (choose sch "poly" false sixty pressed) h temps press r /\ List.length temps = 60 /\ forall i, i < 60 -> QhaRunModel.VT r i 0 = 11%R.
Proof.
  intros A. destruct constants_positive as (H1 & H2).
  edestruct C96_minimum with (yaml_load := fun _ : string => QhaReaderModel.Parsed (good bowl)) as (v & h & temps & press & r & E & S1 & S2 & AT & AP & CL & _);
    [exact codata_positive|exact H1|exact H2|apply (good_prepared sch "poly" false sixty pressed bowl A (or_introl eq_refl) (or_introl eq_refl) (or_introl eq_refl) eq_refl)|left; reflexivity|reflexivity|apply bowl_minimises|reflexivity|].
  pose proof (sixty_points _ AT) as L. exists v, h, temps, press, r. split; [exact E|]. split; [exact S1|]. split; [exact S2|]. split; [exact L|].
  intros i Hi. rewrite <- L in Hi. destruct (CL i Hi) as (g & F0 & M). destruct AP as (P0 & Up & _). cbn [fst snd pressed temperatures pressures choose] in P0, Up. assert (J : 0 < List.length press) by (apply Up; [lra|]; cbn; lra).
  pose proof (M 0 J) as N. rewrite P0 in N by exact J. destruct (parabola sch "poly" false sixty pressed _ _ _ g 1%R F0) as (C & D1 & D2 & _).
  destruct N as (p0 & EP & N & _). rewrite D1 in N.
  assert (Z : p0 = 0%R) by (apply zero_target; rewrite EP; cbn; ring). lra.
Qed.
(** Three temperatures: the log warns, and the expansion is written as zero. *)
Example C96_instance_few : exists v h temps press r, run_of (QhaReaderModel.Parsed (good bowl)) (choose "td" "poly" false three pressed) = (CliModel.Ok tt, v) /\
  CliModel.fs v "run/MgO_QHA.hdf5" = CliModel.File "h5" /\ holds (choose "td" "poly" false three pressed) h temps press r /\ List.length temps = 3 /\ forall i, i < 3 -> QhaRunModel.alphaV r i 0 = 0%R.
Proof.
  destruct constants_positive as (H1 & H2).
  edestruct C96_few_temperatures_refuted with (yaml_load := fun _ : string => QhaReaderModel.Parsed (good bowl)) as (v & h & temps & press & r & E & S1 & S2 & AT & AP & CL & _);
    [exact codata_positive|exact H1|exact H2|apply (good_prepared "td" "poly" false three pressed bowl ltac:(cbn; tauto) (or_introl eq_refl) (or_intror eq_refl) (or_introl eq_refl) eq_refl)|left; reflexivity|reflexivity|apply bowl_minimises|].
  pose proof (three_points _ AT) as L. exists v, h, temps, press, r. split; [exact E|]. split; [exact S1|]. split; [exact S2|]. split; [exact L|].
  intros i Hi. rewrite <- L in Hi. destruct AP as (_ & Up & _). cbn [fst snd pressed temperatures pressures choose] in Up. assert (J : 0 < List.length press) by (apply Up; [lra|]; cbn; lra).
  now apply CL; [rewrite L; lia|..].
Qed.
(** With an equation of state, on energies of its shape. *)
Example C96_instance_eos : exists v h temps press r, run_of (QhaReaderModel.Parsed (good birch)) (choose "td" "eos" false sixty pressless) = (CliModel.Ok tt, v) /\
  holds (choose "td" "eos" false sixty pressless) h temps press r /\ List.length temps = 60 /\ forall i, i < 60 ->
  equilibrium good_si EvEosModel.ev_birchmurnaghan (nth 0 press 0%R) (QhaRunModel.VT r i 0) (QhaRunModel.KT r i 0).
Proof.
  destruct constants_positive as (H1 & H2).
  edestruct C96_eos with (yaml_load := fun _ : string => QhaReaderModel.Parsed (good birch)) as (v & h & temps & press & r & E & S1 & S2 & AT & AP & CL & _);
    [exact codata_positive|exact H1|exact H2|apply (good_prepared "td" "eos" false sixty pressless birch ltac:(cbn; tauto) ltac:(cbn; tauto) (or_introl eq_refl) (or_intror eq_refl) eq_refl)|apply birch_tabulates|reflexivity|apply birch_minimises|reflexivity|].
  pose proof (sixty_points _ AT) as L. exists v, h, temps, press, r. split; [exact E|]. split; [exact S2|]. split; [exact L|].
  intros i Hi. rewrite <- L in Hi. destruct AP as (_ & Up & _). cbn [fst snd pressless temperatures pressures choose] in Up. assert (J : 0 < List.length press) by (apply Up; [lra|]; cbn; lra). destruct (CL i 0 Hi J) as (name & form & FN & Q). now inversion FN; subst.
Qed.
(** Their logs: a block of frequency fits, and the parameters of the equation of state. *)
Example C96_instance_log :
  (exists v lines last, run_of (QhaReaderModel.Parsed (good bowl)) (choose "freq" "poly" false sixty pressed) = (CliModel.Ok tt, v) /\
    QhaCommandProps.logged (choose "freq" "poly" false sixty pressed) "run/MgO.yaml" None v (" - Band # 0" :: lines ++ [last]) /\ List.length lines = 3) /\
  (exists v ls a1 a2 a3 a4, run_of (QhaReaderModel.Parsed (good birch)) (choose "td" "eos" false sixty pressless) = (CliModel.Ok tt, v) /\
    QhaCommandProps.logged (choose "td" "eos" false sixty pressless) "run/MgO.yaml" None v (ls ++ [""; "EoS fitting parameters for static energy vs volume data:"; a1; a2; a3; a4])).
Proof.
  destruct constants_positive as (H1 & H2). split.
  - edestruct C96_log_fits with (yaml_load := fun _ : string => QhaReaderModel.Parsed (good bowl)) as (v & E & Q);
      [exact codata_positive|exact H1|exact H2|apply (good_prepared "freq" "poly" false sixty pressed bowl ltac:(cbn; tauto) (or_introl eq_refl) (or_introl eq_refl) (or_introl eq_refl) eq_refl)|left; reflexivity|reflexivity|apply bowl_minimises|reflexivity|].
    destruct (Q 0 ltac:(cbn; lia)) as (lines & last & L & F2). exists v, lines, last. split; [exact E|]. split; [exact L|]. rewrite <- (both_lengths _ _ _ F2). apply seq_length.
  - edestruct C96_log_eos with (yaml_load := fun _ : string => QhaReaderModel.Parsed (good birch)) as (v & name & form & V & En & e0 & k0 & k1 & v0 & se & sk & sk1 & sv & E & _ & _ & _ & ls & a1 & a2 & a3 & a4 & L & _);
      [exact codata_positive|exact H1|exact H2|apply (good_prepared "td" "eos" false sixty pressless birch ltac:(cbn; tauto) ltac:(cbn; tauto) (or_introl eq_refl) (or_intror eq_refl) eq_refl)|apply birch_tabulates|reflexivity|apply birch_minimises|reflexivity|].
    exists v, ls, a1, a2, a3, a4. split; [exact E|exact L].
Qed.
(** The runs which end without a result. *)
Example C96_instance_failures :
  fst (run_of (QhaReaderModel.Parsed (good bowl)) (choose "td" "poly" true sixty pressed)) = CliModel.Raises "AttributeError" /\
  fst (run_of (QhaReaderModel.Parsed (good hill)) (choose "td" "poly" false sixty pressed)) = CliModel.Raises "IndexError" /\
  fst (run_of (QhaReaderModel.Parsed (good [1; 0; 1]%R)) (choose "td" "poly" false sixty pressed)) = CliModel.Raises "ValueError" /\
  fst (run_of (QhaReaderModel.Parsed (good bowl)) (choose "td" "poly" false (0, 10, 0)%R pressed)) = CliModel.Raises "ZeroDivisionError" /\
  fst (run_of (QhaReaderModel.Parsed QhaReaderModel.YNull) (choose "td" "poly" false sixty pressed)) = CliModel.Raises "AttributeError" /\
  fst (run_of (QhaReaderModel.Parsed (doc (QhaReaderModel.YNum 10) bowl)) (choose "td" "poly" false sixty pressed)) = CliModel.Raises "TypeError" /\
  fst (run_of QhaReaderModel.NotText (choose "td" "poly" false sixty pressed)) = CliModel.Ok tt /\
  fst (run_of (QhaReaderModel.Parsed (doc (QhaReaderModel.YList (map QhaReaderModel.YNum [10; 11; 12]%R)) bowl)) (choose "td" "poly" false sixty pressed)) = CliModel.Ok tt.
Proof.
  destruct constants_positive as (H1 & H2). assert (RT : range_ok sixty) by (cbn; lra). assert (RP : range_ok pressed) by (cbn; lra).
  assert (ST : forall ac t p, QhaCommandProps.started (choose "td" "poly" ac t p) "run/MgO.yaml" None (sample_disk "text") "text") by (intros; apply good_started; cbn; tauto).
  assert (TD : In "td" ["freq"; "td"]) by (cbn; tauto). assert (PO : In "poly" ["poly"; "eos"]) by (cbn; tauto).
  assert (GP : forall ac ens, List.length ens = 4 -> prepared codata (fun _ => QhaReaderModel.Parsed (good ens)) PolyfitProofs.gram_schmidt_fit (choose "td" "poly" ac sixty pressed) "run/MgO.yaml" None (CliModel.Ok false) (sample_disk "text") "text" (good ens) (good_crystal ens) good_si)
    by (intros ac ens L; exact (good_prepared "td" "poly" ac sixty pressed ens TD PO (or_introl eq_refl) (or_introl eq_refl) L)).
  split; [|split; [|split; [|split; [|split; [|split; [|split]]]]]].
  - edestruct C96_acoustic_refuted with (yaml_load := fun _ : string => QhaReaderModel.Parsed (good bowl)) as (v & E & _); [exact codata_positive|apply (GP true bowl eq_refl)|left; reflexivity|reflexivity|]. unfold run_of. now rewrite E.
  - edestruct C96_no_minimum_refuted with (yaml_load := fun _ : string => QhaReaderModel.Parsed (good hill)) as (v & E & _);
      [exact codata_positive|exact H1|exact H2|apply (GP false hill eq_refl)|left; reflexivity|reflexivity|reflexivity| | |unfold run_of; now rewrite E].
    + intros g L. apply QhaEqProps.linear_roots_exact. exact L.
    + intros temps press AT AP. pose proof (sixty_points _ AT) as L. exists (nth 0 temps 0%R), (nth 0 press 0%R). destruct AP as (_ & Up & _). cbn [fst snd pressed temperatures pressures choose] in Up.
      assert (J : 0 < List.length press) by (apply Up; [lra|]; cbn; lra). split; [apply nth_In; lia|]. split; [now apply nth_In|]. intros g F0 M.
      destruct (parabola _ _ _ _ _ _ _ _ _ (-1)%R F0) as (C & _ & D2 & _). set (q := (fst (dp good_si) * nth 0 press 0 * fst (ve good_si) / fst (ee good_si))%R).
      destruct (M q) as (vv & _ & Q).
      { unfold q. cbn [ee ve good_si fst]. assert (0 < Ha_J codata)%R by apply codata_positive. assert (0 < Angstrom_m codata)%R by apply codata_positive. field. lra. }
      rewrite D2 in Q. lra.
  - edestruct C96_uneven_energies_refuted with (yaml_load := fun _ : string => QhaReaderModel.Parsed (good [1; 0; 1]%R)) as (v & E & _);
      [apply (ST false sixty pressed)|exact RT|exact RP|reflexivity|exact (good_said [1; 0; 1]%R)|cbn; lia|cbn; lia|left; reflexivity|]. unfold run_of. now rewrite E.
  - edestruct C96_zero_step_refuted with (yaml_load := fun _ : string => QhaReaderModel.Parsed (good bowl)) as (v & E & _); [apply (ST false (0, 10, 0)%R pressed)|left; reflexivity|]. unfold run_of. now rewrite E.
  - edestruct C96_empty_document_refuted with (yaml_load := fun _ : string => QhaReaderModel.Parsed QhaReaderModel.YNull) as (v & E & _); [apply (ST false sixty pressed)|exact RT|exact RP|reflexivity|]. unfold run_of. now rewrite E.
  - edestruct C96_scalar_volume_refuted with (yaml_load := fun _ : string => QhaReaderModel.Parsed (doc (QhaReaderModel.YNum 10) bowl)) as (v & E & _); [apply (ST false sixty pressed)|exact RT|exact RP|reflexivity|cbn; tauto|reflexivity|]. unfold run_of. now rewrite E.
  - edestruct C96_refused with (yaml_load := fun _ : string => QhaReaderModel.NotText) as (Q & _ & _); [apply (ST false sixty pressed)|exact RT|exact RP|]. destruct (Q ltac:(discriminate)) as (err & v & E & _). unfold run_of. now rewrite E.
  - edestruct C96_refused with (yaml_load := fun _ : string => QhaReaderModel.Parsed (doc (QhaReaderModel.YList (map QhaReaderModel.YNum [10; 11; 12]%R)) bowl)) as (_ & _ & Q); [apply (ST false sixty pressed)|exact RT|exact RP|].
    edestruct Q as (v & E & _); [reflexivity|cbn; tauto|reflexivity|cbn; lia|]. unfold run_of. now rewrite E.
Qed.
