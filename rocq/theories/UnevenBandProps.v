(** C42, C95, C96: documents in which a band does not have one frequency for each
    volume. *)
From Coq Require Import Reals String Ascii List Bool Arith ZArith Lia Lra.
From Flocq Require Import Core.
From Verif Require Import Py DecimalModel FormatProofs QhaReaderModel QhaReaderProps PhononInputModel PhononInputProps.
From Verif Require QhaRunModel QhaEqProps CliModel RunLogProps CitationsModel HaCommandModel HaCommandProps QhaCommandModel QhaCommandProps QhaReportModel ReportModel ReportSpec ReportProofs UnitsModel UnitsSpec UnitsProofs UnitsProps H5Model TableModel FormatModel.
Import ListNotations.
Open Scope string_scope.
Open Scope list_scope.
Open Scope nat_scope.

(** ** What the document says *)
(** [given] of the [nq] q-points announced have a weight and 3 na bands; band j of
    q-point i lists the numbers [L i j]. One of the lists is neither as long as the
    list of volumes nor a single number. *)
Record uneven (y : yaml) (name : string) (na nq given : nat) (cell : (R * R * R) * (R * R * R) * (R * R * R)) (vols ens : list R) (w : nat -> R) (L : nat -> nat -> list R) : Prop := {
  u_name : jobname y = Ok name;
  u_qpoints : get "qpoints" y = Ok (YInt (Z.of_nat nq));
  u_natom : get "natom" y = Ok (YInt (Z.of_nat na));
  u_phonons : exists qs, get "phonon" y = Ok (YList qs) /\ List.length qs = given /\ forall i q, nth_error qs i = Some q ->
    exists bs t, get "band" q = Ok (YList bs) /\ List.length bs = na * 3 /\
      (forall j b, nth_error bs j = Some b -> exists t, get "frequency" b = Ok t /\ get_float t = Ok (Array (map Num (L i j)))) /\
      get "weight" q = Ok t /\ get_float t = Ok (Scalar (Num (w i)));
  u_enough : given <= nq;
  u_volumes : volume y = Ok (Array (map Num vols));
  u_energies : energy y = Ok (Array (map Num ens));
  u_cell : let '(r1, r2, r3) := cell in supercell_says y r1 r2 r3;
  u_uneven : exists i j, i < given /\ j < na * 3 /\ List.length (L i j) <> List.length vols /\ List.length (L i j) <> 1 }.

(** ** What the reader does *)
Lemma bands_any nq nm nv i j bs m (l : nat -> list R) : i < nq -> j + List.length bs <= nm ->
  (forall k b, nth_error bs k = Some b -> exists t, get "frequency" b = Ok t /\ get_float t = Ok (Array (map Num (l (j + k))))) ->
  ((exists m', bands nq nm nv i j bs m = Ok m') /\ (forall k, k < List.length bs -> List.length (l (j + k)) = nv \/ List.length (l (j + k)) = 1)) \/
  bands nq nm nv i j bs m = Raises "ValueError".
Proof.
  intros Hi. revert j m. induction bs as [|b bs IH]; intros j m Lb H; cbn [bands].
  - left. split; [eauto|]. cbn. lia.
  - destruct (H 0 b eq_refl) as (t & G & V). rewrite Nat.add_0_r in V. rewrite G. cbn [bind]. rewrite V. cbn [bind]. unfold assign.
    cbn [List.length] in Lb. destruct (Nat.leb_spec nq i); [lia|]. destruct (Nat.leb_spec nm j); [lia|]. cbn [orb]. rewrite map_length.
    assert (NX : forall m0, ((exists m', bands nq nm nv i (S j) bs m0 = Ok m') /\ (forall k, k < List.length bs -> List.length (l (S j + k)) = nv \/ List.length (l (S j + k)) = 1)) \/
      bands nq nm nv i (S j) bs m0 = Raises "ValueError").
    { intros m0. apply IH; [lia|]. intros k b' Hk. replace (S j + k) with (j + S k) by lia. apply H. exact Hk. }
    destruct (Nat.eqb_spec (List.length (l j)) nv) as [E|E].
    + cbn [bind]. match goal with |- context [bands _ _ _ _ _ _ ?m0 = _] => destruct (NX m0) as [(A & B)|A] end; [left|right; exact A].
      split; [exact A|]. intros [|k] Hk; [rewrite Nat.add_0_r; now left|]. cbn in Hk. replace (j + S k) with (S j + k) by lia. apply B. lia.
    + destruct (l j) as [|x [|x' r]] eqn:El; cbn [map]; [right; reflexivity| |right; reflexivity]. cbn [bind].
      match goal with |- context [bands _ _ _ _ _ _ ?m0 = _] => destruct (NX m0) as [(A & B)|A] end; [left|right; exact A].
      split; [exact A|]. intros [|k] Hk; [rewrite Nat.add_0_r, El; now right|]. cbn in Hk. replace (j + S k) with (S j + k) by lia. apply B. lia.
Qed.
Lemma phonons_any nq nm nv i qs m (L : nat -> nat -> list R) : i + List.length qs <= nq ->
  (forall k q, nth_error qs k = Some q -> exists bs, get "band" q = Ok (YList bs) /\ List.length bs = nm /\
     forall j b, nth_error bs j = Some b -> exists t, get "frequency" b = Ok t /\ get_float t = Ok (Array (map Num (L (i + k) j)))) ->
  (exists k j, k < List.length qs /\ j < nm /\ List.length (L (i + k) j) <> nv /\ List.length (L (i + k) j) <> 1) ->
  phonons nq nm nv i qs m = Raises "ValueError".
Proof.
  revert i m. induction qs as [|q qs IH]; intros i m Lq H (k & j & Hk & Hj & W1 & W2); [cbn in Hk; lia|]. cbn [phonons].
  destruct (H 0 q eq_refl) as (bs & G & Lb & B). rewrite G. cbn [bind elements]. cbn [List.length] in Lq.
  destruct (bands_any nq nm nv i 0 bs m (L i)) as [((m' & E) & F)|E].
  - lia.
  - lia.
  - intros k0 b Hb. rewrite <- (Nat.add_0_r i). exact (B k0 b Hb).
  - rewrite E. cbn [bind]. apply IH.
    + lia.
    + intros k0 q' Hq. replace (S i + k0) with (i + S k0) by lia. apply H. exact Hq.
    + destruct k as [|k].
      * rewrite Nat.add_0_r in W1, W2. destruct (F j) as [?|?]; [lia| |]; cbn in *; contradiction.
      * exists k, j. cbn in Hk. replace (S i + k) with (i + S k) by lia. repeat split; auto. lia.
  - now rewrite E.
Qed.
Lemma fill_any nq i qs w (W : nat -> R) : i + List.length qs <= nq ->
  (forall k q, nth_error qs k = Some q -> exists t, get "weight" q = Ok t /\ get_float t = Ok (Scalar (Num (W (i + k))))) ->
  (forall a, exists x, w a = Num x) -> exists w' v, fill_weights nq i qs w = Ok w' /\ forall a, w' a = Num (v a).
Proof.
  revert i w. induction qs as [|q qs IH]; intros i w L H N; cbn [fill_weights].
  - exists w, (fun a => val (w a)). split; [reflexivity|]. intros a. destruct (N a) as (x & ->). reflexivity.
  - destruct (H 0 q eq_refl) as (t & G & V). rewrite G. cbn [bind]. rewrite V. cbn [bind]. cbn [List.length] in L. destruct (Nat.leb_spec nq i); [lia|]. apply IH.
    + lia.
    + intros k q' Hk. replace (S i + k) with (i + S k) by lia. apply H. exact Hk.
    + intros a. destruct (a =? i); [eauto|apply N].
Qed.

Section Document.
Variables (y : yaml) (name : string) (na nq given : nat) (r1 r2 r3 : R * R * R) (vols ens : list R) (w : nat -> R) (L : nat -> nat -> list R).
Hypothesis D : uneven y name na nq given (r1, r2, r3) vols ens w L.
(** One list of frequencies of the wrong length, and none can be read: ValueError. *)
Theorem C42_uneven_band : frequencies y = Raises "ValueError".
Proof.
  destruct D as [_ Q N (qs & P & Lq & H) G V _ _ (i & j & Hi & Hj & W1 & W2)]. unfold frequencies, QhaReaderModel.qpoints, natoms, nvol.
  rewrite Q. cbn [bind]. rewrite get_int_nat. cbn [bind]. rewrite N. cbn [bind]. rewrite get_int_nat. cbn [bind]. rewrite V. cbn [bind]. rewrite map_length, P. cbn [bind elements].
  apply (phonons_any _ _ _ 0 qs _ L); [lia| |exists i, j; cbn [Nat.add]; repeat split; auto; lia].
  intros k q Hk. destruct (H k q Hk) as (bs & t & A & B & C & _). exists bs. auto.
Qed.
Lemma uneven_weights : exists wts v, weights y = Ok wts /\ forall q, wts q = Num (v q).
Proof.
  destruct D as [_ Q N (qs & P & Lq & H) G _ _ _ _]. unfold weights, QhaReaderModel.qpoints. rewrite Q. cbn [bind]. rewrite get_int_nat. cbn [bind]. rewrite P. cbn [bind elements].
  apply (fill_any nq 0 qs _ w); [lia| |eauto]. intros k q Hk. destruct (H k q Hk) as (bs & t & _ & _ & _ & A & B). exists t. auto.
Qed.
Lemma uneven_total : exists t, total_q_points y = Ok (Num t).
Proof.
  destruct uneven_weights as (wts & v & E & U). pose proof (u_qpoints _ _ _ _ _ _ _ _ _ _ D) as Q. unfold total_q_points, QhaReaderModel.qpoints. rewrite Q. cbn [bind]. rewrite get_int_nat. cbn [bind]. rewrite E. cbn [bind].
  exists (sum_to nq v). now rewrite (fold_sum nq wts v (fun q _ => U q)).
Qed.
Lemma uneven_kpoints : exists k, kpoints y = Ok k.
Proof.
  pose proof (u_cell _ _ _ _ _ _ _ _ _ _ D) as (t1 & t2 & t3 & E & R1 & R2 & R3). unfold kpoints. rewrite E. cbn [bind].
  assert (X : forall r t, (exists a b c, t = YList [a; b; c] /\ let '(x, x', x'') := r in number a = Some x /\ number b = Some x' /\ number c = Some x'') -> three_numbers t = Some r).
  { intros [[x x'] x''] t (a & b & c & -> & A & B & C). cbn [three_numbers]. now rewrite A, B, C. }
  rewrite (X _ _ R1), (X _ _ R2), (X _ _ R3). eexists. reflexivity.
Qed.
Lemma uneven_natoms : natoms y = Ok na.
Proof. unfold natoms. rewrite (u_natom _ _ _ _ _ _ _ _ _ _ D). cbn [bind]. apply get_int_nat. Qed.
Lemma uneven_nvol : nvol y = Ok (List.length vols).
Proof. unfold nvol. rewrite (u_volumes _ _ _ _ _ _ _ _ _ _ D). cbn [bind]. now rewrite map_length. Qed.
Lemma uneven_input : phonon_input y = Raises "ValueError".
Proof. destruct uneven_weights as (wts & v & E & _), uneven_total as (t & T). unfold phonon_input. rewrite E. cbn [bind]. rewrite T. cbn [bind]. now rewrite C42_uneven_band. Qed.
Lemma uneven_loads : exists r, load (Parsed y) = Ok r /\ completed r = true /\ contents r = Some y.
Proof.
  pose proof (u_volumes _ _ _ _ _ _ _ _ _ _ D) as V. pose proof (u_energies _ _ _ _ _ _ _ _ _ _ D) as E. destruct (u_phonons _ _ _ _ _ _ _ _ _ _ D) as (qs & P' & _).
  destruct (bind_get _ _ _ _ V) as (v & V'). destruct (bind_get _ _ _ _ E) as (e & E').
  destruct (get_mapping _ _ _ V') as (m & Em & Pv). destruct (get_mapping _ _ _ E') as (m' & Em' & Pe). destruct (get_mapping _ _ _ P') as (m'' & Em'' & Pp).
  rewrite Em in Em', Em''. injection Em' as <-. injection Em'' as <-. rewrite Em.
  destruct (C41_mapping m) as (r & Lo & C & I & _). exists r. split; [exact Lo|].
  split; [apply I; intros k [<-|[<-|[<-|[]]]]; assumption|exact C].
Qed.
End Document.

(** ** The harmonic command *)
Section Ha.
Variable K : UnitsModel.constants.
Variables hplanck kboltzmann : R.
Variable yaml_load : string -> parsed.
Variable times : nat -> string.
Variable total_time : string.
Variable encode : H5Model.result_file -> string.
Variable memory : string -> nat -> nat -> R.
Variable special_case : yaml -> CliModel.method (option string) * string.
Variables (u : HaCommandModel.ha_options) (f : string) (o : option string) (silent d : bool) (a : CliModel.result bool) (w : CliModel.world).
Notation command := (CliModel.ha_command (HaCommandModel.print_settings u)).
Notation out := (CliModel.outpath command f o).
Notation lf := (CliModel.logpath out).
Notation run_command := (HaCommandModel.ha_main K hplanck kboltzmann yaml_load times total_time encode memory special_case u f o silent d a w).
Notation the_job := (HaCommandModel.ha_job K hplanck kboltzmann times total_time encode memory special_case u (HaCommandModel.ha_temperature u) out).
Notation calculator := (HaCommandModel.ha_calculator K hplanck kboltzmann yaml_load times total_time encode memory special_case u f out).
(** The input is reported and the calculation announced; then ValueError, and no
    result file. *)
Theorem C95_uneven_band_refuted text y name na nq given cell vols ens wt L : HaCommandProps.started u f o w text -> snd (HaCommandModel.trange u) <> 0%R ->
  yaml_load text = Parsed y -> uneven y name na nq given cell vols ens wt L -> List.length vols <= List.length ens ->
  exists v, run_command = (CliModel.Raises "ValueError", v) /\ HaCommandProps.logged u f o v ["Job: " +++ name] /\
  HaCommandProps.logged u f o v [HaCommandModel.banner "Harmonic Approximation calculation started"] /\ forall q, q <> lf -> CliModel.fs v q = CliModel.fs w q.
Proof.
  intros [_ Fi Lo Ni] NZ Y D E. destruct cell as [[r1 r2] r3].
  destruct (uneven_loads _ _ _ _ _ _ _ _ _ _ _ _ D) as (r & Lr & Cr & Ir).
  pose proof (HaCommandProps.reading_of K hplanck kboltzmann yaml_load times total_time encode memory special_case u f o y r text Lr Cr Ir Y) as RT.
  assert (NW : snd (HaCommandModel.ha_new u) = CliModel.Ok tt) by (destruct (HaCommandProps.range_exists u NZ) as (l & El); unfold HaCommandModel.ha_new; cbn [snd]; now rewrite El).
  assert (RP : exists ls, PhononInputModel.printing (HaCommandModel.report_lines u y) = (HaCommandModel.say ("" :: ("Job: " +++ name) :: ls), CliModel.Ok tt)).
  { destruct (uneven_total _ _ _ _ _ _ _ _ _ _ _ _ D) as (t & T), (uneven_kpoints _ _ _ _ _ _ _ _ _ _ _ _ D) as (k & Kp).
    assert (RW : exists rows, HaCommandModel.report_rows y = map (@QhaReaderModel.Ok string) rows).
    { unfold HaCommandModel.report_rows. rewrite (uneven_nvol _ _ _ _ _ _ _ _ _ _ _ _ D).
      exists (map (fun k => " " +++ ReportModel.centred 15 6 (ReportModel.Fin (nth k vols 0%R)) +++ " " +++ ReportModel.centred_e 30 12 (nth k ens 0%R)) (seq 0 (List.length vols))).
      rewrite map_map. apply map_ext_in. intros i I. apply in_seq in I. unfold HaCommandModel.volume_row.
      rewrite (u_volumes _ _ _ _ _ _ _ _ _ _ D), (u_energies _ _ _ _ _ _ _ _ _ _ D). cbn [bind PhononInputModel.index].
      rewrite !nth_error_map, (nth_error_nth' vols 0%R), (nth_error_nth' ens 0%R) by lia. reflexivity. }
    destruct RW as (rows & RW). unfold HaCommandModel.report_lines. rewrite RW, (u_name _ _ _ _ _ _ _ _ _ _ D), (uneven_nvol _ _ _ _ _ _ _ _ _ _ _ _ D), (uneven_natoms _ _ _ _ _ _ _ _ _ _ _ _ D), Kp, T. cbn [bind].
    change [QhaReaderModel.Ok ""] with (map (@QhaReaderModel.Ok string) [""]). rewrite <- map_app.
    match goal with |- exists _, printing ([Ok ?x1; Ok ?x2; Ok ?x3; Ok ?x4; Ok ?x5; Ok ?x6; Ok ?x7; Ok ?x8; Ok ?x9; Ok ?x10; Ok ?x11; Ok ?x12; Ok ?x13] ++ _) = _ =>
      exists ([x3; x4; x5; x6; x7; x8; x9; x10; x11; x12; x13] ++ rows ++ [""]); exact (HaCommandProps.printing_ok ([x1; x2; x3; x4; x5; x6; x7; x8; x9; x10; x11; x12; x13] ++ rows ++ [""])) end. }
  destruct RP as (ls & RP).
  assert (RN : HaCommandModel.ha_run K hplanck kboltzmann times total_time special_case u (HaCommandModel.ha_temperature u) y = (HaCommandModel.say HaCommandModel.start_lines, CliModel.Raises "ValueError")).
  { unfold HaCommandModel.ha_run, HaCommandModel.ha_results. now rewrite (uneven_input _ _ _ _ _ _ _ _ _ _ _ _ D). }
  destruct (RunLogProps.C93_run_raises CitationsModel.ha_texts command f o silent d calculator a w text (the_job y) "ValueError" Fi Lo Ni) as (v & M & S1 & S2).
  - exact NW.
  - cbn [CliModel.read_input HaCommandModel.ha_calculator]. now rewrite RT.
  - cbn [CliModel.report_input_data HaCommandModel.ha_job]. now rewrite RP.
  - cbn [CliModel.run HaCommandModel.ha_job]. now rewrite RN.
  - exists v. split; [exact M|]. cbn [CliModel.new CliModel.read_input HaCommandModel.ha_calculator] in S1. rewrite RT in S1. cbn [CliModel.report_input_data CliModel.run HaCommandModel.ha_job] in S1.
    rewrite RP, RN in S1. cbn [fst HaCommandModel.ha_new] in S1. rewrite !HaCommandProps.hears_say in S1.
    split; [|split; [|exact S2]]; eexists; (split; [exact S1|]).
    + do 3 apply ReportProofs.contains_skip. apply ReportProofs.contains_left. now eexists [_], _.
    + do 4 apply ReportProofs.contains_skip. now eexists [], _.
Qed.
End Ha.

(** ** The quasi-harmonic command *)
Section Qha.
Variable K : UnitsModel.constants.
Variables hplanck kboltzmann : R.
Variable yaml_load : string -> parsed.
Variable np_polyfit : nat -> (nat -> R) -> (nat -> R) -> nat -> list R.
Variable roots : list R -> list (R * R).
Variable eos_fit : string -> nat -> (nat -> R) -> (nat -> R) -> QhaRunModel.outcome ((R * R * R * R) * (ReportModel.shown * ReportModel.shown * ReportModel.shown * ReportModel.shown)).
Variable float_text : R -> string.
Variable times : nat -> string.
Variable total_time : string.
Variable encode : H5Model.result_file -> string.
Variable special_case : QhaCommandModel.qha_options -> yaml -> CliModel.job.
Variables (u : QhaCommandModel.qha_options) (f : string) (o : option string) (silent d : bool) (a : CliModel.result bool) (w : CliModel.world).
Notation command := (CliModel.qha_command (QhaCommandModel.qha_print_settings u)).
Notation out := (CliModel.outpath command f o).
Notation lf := (CliModel.logpath out).
Notation run_command := (QhaCommandModel.qha_main K hplanck kboltzmann yaml_load np_polyfit roots eos_fit float_text times total_time encode special_case u f o silent d a w).
Notation tl := (QhaCommandModel.points (QhaCommandModel.temperatures u)).
Notation pl := (QhaCommandModel.points (QhaCommandModel.pressures u)).
Notation the_job := (QhaCommandModel.qha_job K hplanck kboltzmann np_polyfit roots eos_fit float_text times total_time encode u tl pl out).
Notation reads := (QhaCommandModel.qha_read K hplanck kboltzmann yaml_load np_polyfit roots eos_fit float_text times total_time encode special_case u f out).

Lemma uneven_report y name na nq given r1 r2 r3 vols ens wt L text : QhaCommandProps.started u f o w text -> uneven y name na nq given (r1, r2, r3) vols ens wt L ->
  List.length ens = List.length vols -> 2 <= List.length vols -> QhaCommandModel.minim u = "poly" ->
  exists ev, QhaCommandModel.qha_report K eos_fit float_text u y = (HaCommandModel.say ["" ; "Job: " +++ name] ++ ev, CliModel.Ok tt).
Proof.
  intros ST D E N MI. destruct (uneven_total _ _ _ _ _ _ _ _ _ _ _ _ D) as (t & T), (uneven_kpoints _ _ _ _ _ _ _ _ _ _ _ _ D) as (k & Kp).
  assert (HE : exists ls, QhaCommandModel.heading_events y = QhaCommandModel.said ("" :: ("Job: " +++ name) :: ls)).
  { unfold QhaCommandModel.heading_events. rewrite (u_name _ _ _ _ _ _ _ _ _ _ D), (uneven_nvol _ _ _ _ _ _ _ _ _ _ _ _ D), (uneven_natoms _ _ _ _ _ _ _ _ _ _ _ _ D), Kp, T. cbn [bind map QhaCommandModel.saying].
    match goal with |- exists _, [Ok (CliModel.Say ?x1); Ok (CliModel.Say ?x2); Ok (CliModel.Say ?x3); Ok (CliModel.Say ?x4); Ok (CliModel.Say ?x5); Ok (CliModel.Say ?x6); Ok (CliModel.Say ?x7); Ok (CliModel.Say ?x8); Ok (CliModel.Say ?x9); Ok (CliModel.Say ?x10); Ok (CliModel.Say ?x11)] = _ =>
      exists [x3; x4; x5; x6; x7; x8; x9; x10; x11]; reflexivity end. }
  destruct HE as (ls & HE). unfold QhaCommandModel.qha_report. rewrite HE, QhaCommandProps.performing_said.
  assert (SD : exists x, QhaCommandModel.static_data u y = Ok (Some x) /\ QhaRunModel.nvol x = List.length vols).
  { unfold QhaCommandModel.static_data. rewrite (u_volumes _ _ _ _ _ _ _ _ _ _ D), (u_energies _ _ _ _ _ _ _ _ _ _ D). cbn [bind]. rewrite !all_num, !map_length, E, Nat.eqb_refl. cbn [andb].
    eexists. split; [reflexivity|]. reflexivity. }
  destruct SD as (x & -> & Nx). unfold QhaCommandModel.table_events.
  assert (PA : exists ps, QhaCommandModel.pressures_at K eos_fit float_text u x = QhaRunModel.Ok (ps, [])).
  { unfold QhaCommandModel.pressures_at.
    replace (QhaRunModel.eos_on (QhaCommandModel.qha_settings u)) with false by (unfold QhaRunModel.eos_on; cbn [QhaRunModel.minimization QhaCommandModel.qha_settings]; now rewrite MI).
    unfold QhaReportModel.np_gradient. rewrite Nx. destruct (Nat.ltb_spec (List.length vols) 2); [lia|]. cbn [QhaRunModel.bind].
    destruct (QhaEqProps.known_units K (QhaCommandModel.qha_settings u) (QhaCommandProps.offered_units hplanck yaml_load eos_fit float_text total_time special_case u f o w text ST)) as (_ & (de & Me) & _ & (dv & Mv) & _ & _ & dp & Mp).
    unfold QhaRunModel.conversion. rewrite UnitsProofs.e2p_value, Me, Mv, Mp. eexists. reflexivity. }
  destruct PA as (ps & ->). rewrite Kp, QhaCommandProps.performing_said. cbn [map app].
  destruct ((1 <? k)%Z && QhaRunModel.kieffer_on (QhaCommandModel.qha_settings u))%bool; eexists; cbn; reflexivity.
Qed.
(** The volumes and energies are reported and the calculation announced; then
    ValueError, and no result file. *)
Theorem C96_uneven_band_refuted text y name na nq given cell vols ens wt L : QhaCommandProps.started u f o w text ->
  QhaCommandProps.range_ok (QhaCommandModel.temperatures u) -> QhaCommandProps.range_ok (QhaCommandModel.pressures u) ->
  yaml_load text = Parsed y -> uneven y name na nq given cell vols ens wt L -> 4 <= List.length vols -> List.length ens = List.length vols -> QhaCommandModel.minim u = "poly" ->
  exists v, run_command = (CliModel.Raises "ValueError", v) /\ QhaCommandProps.logged u f o v ["Job: " +++ name] /\
  QhaCommandProps.logged u f o v [HaCommandModel.banner "Quasi-Harmonic Approximation calculation started"] /\ forall q, q <> lf -> CliModel.fs v q = CliModel.fs w q.
Proof.
  intros ST RT RP Y D L4 E MI. destruct cell as [[r1 r2] r3]. destruct (uneven_report _ _ _ _ _ _ _ _ _ _ _ _ _ ST D E ltac:(lia) MI) as (ev & RE).
  destruct (uneven_loads _ _ _ _ _ _ _ _ _ _ _ _ D) as (r & Lr & Cr & Ir).
  assert (RX : reads text = ([CliModel.Say ("Reading input file: " +++ f); CliModel.Debug "Instantiate file reader"], CliModel.Ok (inr (the_job y)))).
  { unfold QhaCommandModel.qha_read, qha_read_input. rewrite Y, Lr. cbn [bind]. rewrite Cr. cbn [negb]. rewrite Ir, (u_volumes _ _ _ _ _ _ _ _ _ _ D). cbn [bind]. rewrite map_length.
    destruct (Nat.ltb_spec (List.length vols) 4); [lia|]. rewrite Ir. cbv zeta.
    replace (QhaCommandModel.set_apart u tl pl y) with false; [reflexivity|]. destruct (QhaCommandProps.points_exist u RT RP) as (A & B). unfold QhaCommandModel.set_apart.
    rewrite A, B, (uneven_input _ _ _ _ _ _ _ _ _ _ _ _ D). unfold QhaCommandModel.static_data.
    rewrite (u_volumes _ _ _ _ _ _ _ _ _ _ D), (u_energies _ _ _ _ _ _ _ _ _ _ D). cbn [bind]. now rewrite !all_num, !map_length, E, Nat.eqb_refl. }
  edestruct (QhaCommandProps.run_fails K hplanck kboltzmann yaml_load np_polyfit roots eos_fit float_text times total_time encode special_case u f o silent d a w text) as (v & A & B & C);
    [exact ST|exact RT|exact RP|exact RX|exact RE|cbn [CliModel.run QhaCommandModel.qha_job]; unfold QhaCommandModel.qha_run; rewrite (uneven_input _ _ _ _ _ _ _ _ _ _ _ _ D); reflexivity|].
  exists v. split; [exact A|]. unfold QhaCommandModel.run_start in B. rewrite !RunLogProps.voices_app, !QhaCommandProps.hears in B. split; [|split; [|exact C]]; eexists; (split; [exact B|]).
  - do 2 apply ReportProofs.contains_skip. apply ReportProofs.contains_left. apply ReportProofs.contains_left. now eexists [_], _.
  - do 3 apply ReportProofs.contains_skip. apply ReportProofs.contains_left. now eexists [], _.
Qed.
End Qha.

(** Four volumes, and a band with three frequencies. *)
Definition listed (ns : list Z) : yaml := YMap [("frequency", YList (map YInt ns))].
Definition short : yaml := YMap
  [("job", YStr "Short band"); ("natom", YInt 1); ("qpoints", YInt 1);
   ("supercell", YList [YList [YInt 1; YInt 0; YInt 0]; YList [YInt 0; YInt 1; YInt 0]; YList [YInt 0; YInt 0; YInt 1]]);
   ("volume", YList (map YInt [40; 41; 42; 43]%Z)); ("energy", YList (map YInt [-1; -2; -2; -1]%Z));
   ("phonon", YList [YMap [("weight", YInt 1); ("band", YList [listed [0; 0; 0; 0]%Z; listed [210; 200; 190]%Z; listed [310; 300; 290; 280]%Z])]])].
Example C42_instance_uneven : uneven short "Short band" 1 1 1 ((1, 0, 0), (0, 1, 0), (0, 0, 1))%R [40; 41; 42; 43]%R [-1; -2; -2; -1]%R (fun _ => 1%R)
  (fun _ j => nth j [[0; 0; 0; 0]; [210; 200; 190]; [310; 300; 290; 280]]%R []) /\ frequencies short = Raises "ValueError".
Proof.
  assert (U : uneven short "Short band" 1 1 1 ((1, 0, 0), (0, 1, 0), (0, 0, 1))%R [40; 41; 42; 43]%R [-1; -2; -2; -1]%R (fun _ => 1%R)
    (fun _ j => nth j [[0; 0; 0; 0]; [210; 200; 190]; [310; 300; 290; 280]]%R [])).
  { constructor; try reflexivity.
    - eexists. split; [reflexivity|]. split; [reflexivity|]. intros [|i] q Hq; [|destruct i; discriminate]. injection Hq as <-. eexists _, _. split; [reflexivity|]. split; [reflexivity|].
      split; [|split; reflexivity]. intros [|[|[|j]]] b Hb; [injection Hb as <-..|destruct j; discriminate]; eexists; split; reflexivity.
    - eexists _, _, _. split; [reflexivity|]. repeat split; eexists _, _, _; (split; [reflexivity|]); repeat split; reflexivity.
    - exists 0, 1. repeat split; cbn; lia. }
  split; [exact U|]. exact (C42_uneven_band _ _ _ _ _ _ _ _ _ _ _ _ U).
Qed.

Print Assumptions C42_uneven_band.
Print Assumptions C95_uneven_band_refuted.
Print Assumptions C96_uneven_band_refuted.
