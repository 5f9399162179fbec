(** C96: `quantas qha FILE` from the text of the file to its log and result file:
    what is written, and the runs which are refused or fail.
    Concrete runs which meet the hypotheses are in QhaCommandProps3. *)
From Coq Require Import Reals String Ascii List Bool Arith ZArith Lia Lra.
From Flocq Require Import Core.
From Verif Require QhaReaderModel QhaReaderProps QhaRunModel QhaRunProps QhaRunProps2 QhaEqProps CliModel CliProps CitationsModel RunLogProps StatMechModel StatMechSpec.
From Verif Require Import Py DecimalModel DecimalProofs FormatModel FormatProofs TableModel StoreModel UnitsModel UnitsSpec UnitsProofs UnitsProps GridModel GridProps ReportModel ReportSpec ReportProofs
  QhaReportModel QhaReportProps QhaReportProps2 H5Model PhononInputModel PhononInputProps HaCommandModel HaCommandProps QhaCommandModel.
Import ListNotations.
Open Scope string_scope.
Open Scope list_scope.
Open Scope nat_scope.

Lemma performing_said l rest : performing (said l ++ rest) = (say l ++ fst (performing rest), snd (performing rest)).
Proof.
  induction l as [|m l IH]; [cbn; now destruct (performing rest)|]. change (said (m :: l) ++ rest) with (QhaReaderModel.Ok (CliModel.Say m) :: (said l ++ rest)).
  cbn [performing]. rewrite IH. reflexivity.
Qed.
Lemma performing_only l : performing (said l) = (say l, CliModel.Ok tt).
Proof. rewrite <- (app_nil_r (said l)), performing_said. cbn [performing fst snd]. now rewrite app_nil_r. Qed.
Lemma performing_stops l e rest : performing (said l ++ QhaReaderModel.Raises e :: rest) = (say l, CliModel.Raises e).
Proof. rewrite performing_said. cbn [performing fst snd]. now rewrite app_nil_r. Qed.
Lemma said_app a b : said (a ++ b) = said a ++ said b.
Proof. apply map_app. Qed.
Lemma say_app a b : say (a ++ b) = say a ++ say b.
Proof. apply map_app. Qed.
Lemma hears d l : RunLogProps.voices d (say l) = l.
Proof. induction l as [|m l IH]; [reflexivity|]. change (RunLogProps.voices d (say (m :: l))) with (m :: RunLogProps.voices d (say l)). now rewrite IH. Qed.

Section Command.
Variable K : constants.
Variables hplanck kboltzmann : R.
Variable yaml_load : string -> QhaReaderModel.parsed.
Variable np_polyfit : nat -> (nat -> R) -> (nat -> R) -> nat -> list R.
Variable roots : list R -> list (R * R).
Variable eos_fit : string -> nat -> (nat -> R) -> (nat -> R) -> QhaRunModel.outcome ((R * R * R * R) * (shown * shown * shown * shown)).
Variable float_text : R -> string.
Variable times : nat -> string.
Variable total_time : string.
Variable encode : result_file -> string.
Variable special_case : qha_options -> QhaReaderModel.yaml -> CliModel.job.
Variables (u : qha_options) (f : string) (o : option string) (silent d : bool) (a : CliModel.result bool) (w : CliModel.world).
Notation command := (CliModel.qha_command (qha_print_settings u)).
Notation out := (CliModel.outpath command f o).
Notation lf := (CliModel.logpath out).
Notation run_command := (qha_main K hplanck kboltzmann yaml_load np_polyfit roots eos_fit float_text times total_time encode special_case u f o silent d a w).
Notation tl := (points (temperatures u)).
Notation pl := (points (pressures u)).
Notation the_job := (qha_job K hplanck kboltzmann np_polyfit roots eos_fit float_text times total_time encode u tl pl out).
Notation reads := (qha_read K hplanck kboltzmann yaml_load np_polyfit roots eos_fit float_text times total_time encode special_case u f out).
Notation calculator := (qha_calculator K hplanck kboltzmann yaml_load np_polyfit roots eos_fit float_text times total_time encode special_case u f out).
Notation s := (qha_settings u).
Notation results x := (qha_results K hplanck kboltzmann np_polyfit roots eos_fit u tl pl x).
Hypothesis PK : positive_constants K.

(** Options which click accepts, an input which is a file, a place for the log. *)
Record started (text : string) : Prop := {
  units_offered : In (eunit_q u) ["Ha"; "eV"; "Ry"] /\ In (vunit_q u) ["A"; "bohr"] /\ In (funit_q u) ["cm-1"; "THz"; "Hz"] /\ In (tunit_q u) ["K"; "C"] /\ In (punit_q u) ["GPa"; "kbar"];
  choices_offered : In (scheme u) ["freq"; "td"] /\ In (minim u) ["poly"; "eos"] /\ In (eos_tag u) ["M"; "BM"; "PT"; "V"];
  input_file : CliModel.fs w f = CliModel.File text;
  log_free : CliModel.fs w lf <> CliModel.Dir;
  log_not_input : lf <> f }.
(** A range with at least one point. *)
Definition range_ok (r : R * R * R) : Prop :=
  let '(lo, hi, step) := r in (0 < step /\ lo < hi + step \/ step < 0 /\ hi + step < lo)%R.
Definition out_free : Prop := CliModel.fs w out = CliModel.Absent \/ CliModel.fs w out <> CliModel.Dir /\ a = CliModel.Ok true.
Definition logged (v : CliModel.world) (block : list string) : Prop :=
  exists messages, CliModel.fs v lf = CliModel.File (RunLogProps.page messages) /\ contains messages block.
Definition opening : list string := [""; CitationsModel.quantas_title] ++ qha_settings_lines u ++ [""].
Definition told_reading : list string := ("Reading input file: " +++ f) :: if d then ["Debug: Instantiate file reader"] else [].

Lemma offered_units text : started text -> QhaEqProps.offered s.
Proof.
  intros [(A & B & C & D & E) _ _ _ _]. unfold QhaEqProps.offered, qha_settings. cbn. repeat split; try assumption.
  destruct C as [<-|[<-|[<-|[]]]]; cbn; tauto.
Qed.
Lemma range_points r : range_ok r -> exists l, set_range r = Some l /\ points r = l /\ l <> [] /\ stepped (fst (fst r)) (snd (fst r)) (snd r) l.
Proof.
  destruct r as [[lo hi] step]. cbn [range_ok fst snd]. intros H.
  destruct (set_range (lo, hi, step)) as [l|] eqn:E.
  - exists l. split; [reflexivity|]. split; [unfold points; now rewrite E|]. pose proof (range_stepped _ _ _ _ E) as T. split; [|exact T].
    intros ->. destruct T as (_ & Up & Dn). destruct H as [(P & Q)|(P & Q)].
    + specialize (Up P 0). cbn [INR List.length] in Up. assert (0 < 0) by (apply Up; lra). lia.
    + specialize (Dn P 0). cbn [INR List.length] in Dn. assert (0 < 0) by (apply Dn; lra). lia.
  - apply (C43_zero_step lo hi step) in E. lra.
Qed.
Lemma new_ok : range_ok (temperatures u) -> range_ok (pressures u) -> snd (qha_new u) = CliModel.Ok tt.
Proof. intros A B. destruct (range_points _ A) as (l & E & _), (range_points _ B) as (l' & E' & _). unfold qha_new. cbn [snd]. now rewrite E, E'. Qed.
Lemma heard_reading : RunLogProps.voices d [CliModel.Say ("Reading input file: " +++ f); CliModel.Debug "Instantiate file reader"] = told_reading.
Proof. unfold told_reading. destruct d; reflexivity. Qed.
Lemma settings_page rest : RunLogProps.page ([""; CitationsModel.quantas_title; CliModel.settings command] ++ rest) = RunLogProps.page (opening ++ rest).
Proof.
  change (CliModel.settings command) with (concat_map (fun l => l +++ nl) (qha_settings_lines u)). rewrite page_explode. f_equal. unfold opening. now rewrite <- !app_assoc.
Qed.

Section Read.
Variables (text : string) (y : QhaReaderModel.yaml) (name : string) (na nq : nat) (kp : Z) (vols ens : list R) (wt : nat -> R) (F : nat -> nat -> nat -> R).
Hypothesis ST : started text.
Hypothesis RT : range_ok (temperatures u).
Hypothesis RP : range_ok (pressures u).
Hypothesis YL : yaml_load text = QhaReaderModel.Parsed y.
Hypothesis RD : readable y name na nq kp vols ens wt F.
Hypothesis L4 : 4 <= List.length vols.
Notation hdr := {| job := name; natoms := Z.of_nat na; QhaReportModel.kpoints := kp |}.

Lemma reads_text : set_apart u tl pl y = false ->
  reads text = ([CliModel.Say ("Reading input file: " +++ f); CliModel.Debug "Instantiate file reader"], CliModel.Ok (inr (the_job y))).
Proof.
  intros SA. destruct (readable_loads _ _ _ _ _ _ _ _ _ RD) as (r & L & C & D & _). unfold qha_read, QhaReaderModel.qha_read_input. rewrite YL, L. cbn [QhaReaderModel.bind]. rewrite C. cbn [negb].
  rewrite D, (r_volume _ _ _ _ _ _ _ _ _ RD). cbn [QhaReaderModel.bind]. rewrite map_length. destruct (Nat.ltb_spec (List.length vols) 4); [lia|]. rewrite D. cbv zeta. now rewrite SA.
Qed.
Lemma input_exists : exists x, phonon_input y = QhaReaderModel.Ok (Some x) /\ same_input na nq vols ens wt F x.
Proof. exact (readable_input _ _ _ _ _ _ _ _ _ RD). Qed.
Lemma points_exist : (List.length tl =? 0) = false /\ (List.length pl =? 0) = false.
Proof.
  destruct (range_points _ RT) as (l & _ & -> & A & _), (range_points _ RP) as (l' & _ & -> & B & _). split; apply Nat.eqb_neq; destruct l, l'; cbn; congruence || lia.
Qed.
Lemma static_ok x : List.length ens = List.length vols -> phonon_input y = QhaReaderModel.Ok (Some x) ->
  exists x0, static_data u y = QhaReaderModel.Ok (Some x0) /\ QhaRunModel.nvol x0 = QhaRunModel.nvol x /\ QhaRunModel.volume x0 = QhaRunModel.volume x /\ QhaRunModel.static_energy x0 = QhaRunModel.static_energy x.
Proof.
  intros L E. unfold static_data. rewrite (r_volume _ _ _ _ _ _ _ _ _ RD), (r_energy _ _ _ _ _ _ _ _ _ RD). cbn [QhaReaderModel.bind]. rewrite !all_num, !map_length, L, Nat.eqb_refl. cbn [andb].
  eexists. split; [reflexivity|]. cbn [QhaRunModel.nvol QhaRunModel.volume QhaRunModel.static_energy].
  revert E. unfold phonon_input. rewrite (readable_total _ _ _ _ _ _ _ _ _ RD), (r_qpoints _ _ _ _ _ _ _ _ _ RD), (r_natoms _ _ _ _ _ _ _ _ _ RD), (readable_nvol _ _ _ _ _ _ _ _ _ RD),
    (r_volume _ _ _ _ _ _ _ _ _ RD), (r_energy _ _ _ _ _ _ _ _ _ RD). destruct (QhaReaderModel.weights y); [|discriminate]. cbn [QhaReaderModel.bind]. destruct (QhaReaderModel.frequencies y); [|discriminate].
  cbn [QhaReaderModel.bind items]. match goal with |- context [if ?b then _ else _] => destruct b end; [|discriminate]. intros [= <-]. repeat split.
Qed.
Lemma not_apart : List.length ens = List.length vols -> set_apart u tl pl y = false.
Proof.
  intros L. destruct input_exists as (x & E & _). destruct (static_ok x L E) as (x0 & E0 & _). destruct points_exist as (A & B). unfold set_apart. now rewrite E0, E, A, B.
Qed.
Definition heading : list string := system_lines hdr
  {| QhaRunModel.nvol := List.length vols; QhaRunModel.volume := fun _ => 0%R; QhaRunModel.static_energy := fun _ => 0%R;
     QhaRunModel.frequencies := {| StatMechModel.nb := 0; StatMechModel.nf := 0; StatMechModel.nv := 0; StatMechModel.freq := fun _ _ _ => 0%R |};
     QhaRunModel.weights := fun _ => 0%R; QhaRunModel.total_q_points := QhaReaderProps.sum_to nq wt |}.
Lemma heading_ok : heading_events y = said heading.
Proof.
  unfold heading_events. rewrite (r_name _ _ _ _ _ _ _ _ _ RD), (readable_nvol _ _ _ _ _ _ _ _ _ RD), (r_natoms _ _ _ _ _ _ _ _ _ RD), (r_kpoints _ _ _ _ _ _ _ _ _ RD), (readable_total _ _ _ _ _ _ _ _ _ RD). reflexivity.
Qed.
Lemma heading_same x : same_input na nq vols ens wt F x -> system_lines hdr x = heading.
Proof. intros (N & _ & _ & _ & _ & _ & _ & _ & T). unfold heading, system_lines. cbn [QhaRunModel.nvol QhaRunModel.total_q_points]. now rewrite N, T. Qed.
(** The report is the one of C88. *)
Lemma pressures_same x x0 ps lines : QhaRunModel.nvol x0 = QhaRunModel.nvol x -> QhaRunModel.volume x0 = QhaRunModel.volume x -> QhaRunModel.static_energy x0 = QhaRunModel.static_energy x ->
  input_pressures K eos_fit float_text s x = QhaRunModel.Ok (ps, lines) -> pressures_at K eos_fit float_text u x0 = QhaRunModel.Ok (ps, map QhaRunModel.Ok lines).
Proof.
  intros N V E. unfold input_pressures, pressures_at. rewrite N, V, E. destruct (QhaRunModel.eos_on s).
  - destruct (eos_fit _ _ _ _) as [[[[[e0 k0] k1] v0] [[[se sk] sk1] sv]]|]; [|discriminate 1]. cbn [QhaRunModel.bind].
    destruct (QhaRunModel.e2p K s k0) as [k|]; [|discriminate 1]. cbn [QhaRunModel.bind]. destruct (scale_shown _ sk) as [sk'|]; [|discriminate 1]. cbn [QhaRunModel.bind].
    destruct (EvEosModel.pressure _ _ _ _ _ 0%R); [|discriminate 1]. cbn [each].
    destruct (concise float_text "E0" e0 se) as [la|] eqn:Ea; [|discriminate 1]. cbn [QhaRunModel.bind].
    destruct (concise float_text "K0" k sk') as [lb|] eqn:Eb; [|discriminate 1]. cbn [QhaRunModel.bind].
    destruct (concise float_text "K'" k1 sk1) as [lc|] eqn:Ec; [|discriminate 1]. cbn [QhaRunModel.bind].
    destruct (concise float_text "V0" v0 sv) as [ld|] eqn:Ed; [|discriminate 1]. cbn [QhaRunModel.bind]. intros [= <- <-]. cbn [map app]. now rewrite Ea, Eb, Ec, Ed.
  - destruct (np_gradient _ _ _) as [g|]; [|discriminate 1]. cbn [QhaRunModel.bind]. destruct (QhaRunModel.conversion _) as [c|]; [|discriminate 1]. cbn [QhaRunModel.bind]. intros [= <- <-]. reflexivity.
Qed.
Lemma report_ok x lines : List.length ens = List.length vols -> phonon_input y = QhaReaderModel.Ok (Some x) -> same_input na nq vols ens wt F x -> acoustic u = false ->
  report_input K eos_fit float_text s x hdr = QhaRunModel.Ok lines -> qha_report K eos_fit float_text u y = (say lines, CliModel.Ok tt).
Proof.
  intros L E I KO. unfold report_input. destruct (input_pressures _ _ _ _ _) as [[ps pars]|] eqn:P; [|discriminate 1]. cbn [QhaRunModel.bind]. intros X. match type of X with QhaRunModel.Ok ?b = _ => assert (EQ : b = lines) by congruence end. subst lines. clear X.
  destruct (static_ok x L E) as (x0 & E0 & N & V & En). unfold qha_report. rewrite heading_ok, E0. unfold table_events.
  rewrite (pressures_same x x0 ps pars N V En P), (r_kpoints _ _ _ _ _ _ _ _ _ RD). unfold kieffer_warning. cbn [QhaReportModel.kpoints]. replace (QhaRunModel.kieffer_on s) with false by (symmetry; exact KO). rewrite andb_false_r.
  replace (map (fun o0 => saying (run_outcome o0)) (map QhaRunModel.Ok pars)) with (said pars) by (unfold said; rewrite map_map; reflexivity).
  rewrite app_nil_l, <- !said_app, performing_only, (heading_same x I). f_equal. f_equal. f_equal. rewrite <- !app_assoc. unfold table_row. rewrite N, V, En. reflexivity.
Qed.

Definition run_lines (ph : StatMechModel.bands) (x : QhaRunModel.input) : list string :=
  RunLogProps.voices d (run_start ++ work_start np_polyfit times u ph x ++ work_end times total_time u tl).
Definition full_log (lines : list string) (ph : StatMechModel.bands) (x : QhaRunModel.input) (ls : list string) : list string :=
  opening ++ told_reading ++ lines ++ run_lines ph x ++ ls ++ ["Calculated data exported to " +++ out] ++ RunLogProps.references CitationsModel.qha_texts.
Lemma completes x lines r : List.length ens = List.length vols -> phonon_input y = QhaReaderModel.Ok (Some x) -> same_input na nq vols ens wt F x -> acoustic u = false ->
  report_input K eos_fit float_text s x hdr = QhaRunModel.Ok lines -> results x = QhaRunModel.Ok r -> out_free ->
  exists v ph ls, run_command = (CliModel.Ok tt, v) /\ QhaRunModel.phonons_Hz K s x = QhaRunModel.Ok ph /\ report_results K float_text s tl pl r = QhaRunModel.Ok ls /\
  CliModel.fs v out = CliModel.File (encode (qha_result_file s name tl pl r)) /\
  CliModel.fs v lf = CliModel.File (RunLogProps.page (full_log lines ph x ls)) /\ forall q, q <> lf -> q <> out -> CliModel.fs v q = CliModel.fs w q.
Proof.
  intros L E I KO RI RR O. pose proof ST as [_ _ Fi Lo Ni].
  destruct (QhaEqProps.known_units K s (offered_units _ ST)) as ((de & Me) & _ & _ & _ & (df & Mf) & _ & _).
  assert (PH : exists ph, QhaRunModel.phonons_Hz K s x = QhaRunModel.Ok ph).
  { destruct (QhaRunProps.run_inv _ _ _ _ _ _ _ _ _ _ _ _ _ RR) as (ct & ph & r0 & _ & Eph & _). eauto. }
  destruct PH as (ph & PH).
  assert (RS : exists ls, report_results K float_text s tl pl r = QhaRunModel.Ok ls).
  { assert (CE : exists c, QhaRunModel.from_eunit K s = QhaRunModel.Ok c) by (apply (QhaEqProps.conversion_total _ _ _ _ de (1000 / N_A K, 0)%R (energy_converts K PK)); [exact Me|reflexivity]).
    destruct CE as (c & CE). unfold report_results. rewrite CE. eexists. reflexivity. }
  destruct RS as (ls & RS).
  pose proof (reads_text (not_apart L)) as RX. pose proof (report_ok x lines L E I KO RI) as RO.
  assert (RN : qha_run K hplanck kboltzmann np_polyfit roots eos_fit times total_time u tl pl y = (run_start ++ work_start np_polyfit times u ph x ++ work_end times total_time u tl, CliModel.Ok None)).
  { unfold qha_run. now rewrite E, PH, RR. }
  assert (CA : calculated K hplanck kboltzmann np_polyfit roots eos_fit u tl pl y = Some r) by (unfold calculated; now rewrite E, RR).
  assert (RE : qha_report_results K hplanck kboltzmann np_polyfit roots eos_fit float_text u tl pl y = (say ls, CliModel.Ok tt)) by (unfold qha_report_results; now rewrite CA, RS).
  destruct (RunLogProps.C93_completed CitationsModel.qha_texts command f o silent d calculator a w text (the_job y)) as (v & M & S1 & S2 & S3).
  - right. left. reflexivity.
  - exact Fi.
  - exact Lo.
  - exact Ni.
  - exact (new_ok RT RP).
  - cbn [CliModel.read_input qha_calculator]. now rewrite RX.
  - cbn [CliModel.report_input_data qha_job]. now rewrite RO.
  - cbn [CliModel.run qha_job]. now rewrite RN.
  - intros _. cbn [CliModel.report_results qha_job]. now rewrite RE.
  - exact O.
  - exists v, ph, ls. split; [exact M|]. split; [exact PH|]. split; [exact RS|]. split.
    { rewrite S1. cbn [CliModel.saved qha_job]. unfold qha_saved. now rewrite CA, (r_name _ _ _ _ _ _ _ _ _ RD). }
    split; [|exact S3]. rewrite S2. f_equal. rewrite settings_page. f_equal. unfold full_log. f_equal.
    unfold RunLogProps.told_by. cbn [CliModel.reports CliModel.qha_command CliModel.new CliModel.read_input qha_calculator]. rewrite RX.
    cbn [CliModel.report_input_data CliModel.run CliModel.report_results CliModel.exported qha_job]. rewrite RO, RN, RE. cbn [fst qha_new]. rewrite heard_reading, !hears. cbn [RunLogProps.voices map List.concat app]. rewrite <- !app_assoc. reflexivity.
Qed.

(** Acoustic branches, or one energy too many or too few. *)
Lemma performing_all l : performing (map QhaReaderModel.Ok l) = (l, CliModel.Ok tt).
Proof. induction l as [|e l IH]; [reflexivity|]. cbn [map performing]. now rewrite IH. Qed.
Lemma report_acoustic x lines : List.length ens = List.length vols -> phonon_input y = QhaReaderModel.Ok (Some x) ->
  report_input K eos_fit float_text s x hdr = QhaRunModel.Ok lines ->
  exists ev, qha_report K eos_fit float_text u y =
    (say heading ++ ev ++ say [""] ++ (if ((1 <? kp)%Z && QhaRunModel.kieffer_on s)%bool then [CliModel.Warn warning_text] else []) ++ say [""], CliModel.Ok tt).
Proof.
  intros L E. unfold report_input. destruct (input_pressures _ _ _ _ _) as [[ps pars]|] eqn:P; [|discriminate 1]. intros _.
  destruct (static_ok x L E) as (x0 & E0 & N & V & En). unfold qha_report. rewrite heading_ok, E0. unfold table_events.
  rewrite (pressures_same x x0 ps pars N V En P), (r_kpoints _ _ _ _ _ _ _ _ _ RD), performing_said.
  replace (map (fun o0 => saying (run_outcome o0)) (map QhaRunModel.Ok pars)) with (said pars) by (unfold said; rewrite map_map; reflexivity).
  match goal with |- context [performing (said ?l1 ++ said pars ++ said [""] ++ (if ?b then [QhaReaderModel.Ok ?w0] else []) ++ said [""])] =>
    replace (said l1 ++ said pars ++ said [""] ++ (if b then [QhaReaderModel.Ok w0] else []) ++ said [""])
    with (map (@QhaReaderModel.Ok CliModel.event) (say l1 ++ say pars ++ say [""] ++ (if b then [w0] else []) ++ say [""])) end.
  - rewrite performing_all. cbn [fst snd]. match goal with |- context [say heading ++ say ?l1 ++ say pars ++ _] => exists (say l1 ++ say pars) end. now rewrite <- !app_assoc.
  - rewrite !map_app. unfold said, say. rewrite !map_map. match goal with |- context [if ?b then _ else _] => destruct b end; reflexivity.
Qed.
Lemma report_uneven : List.length ens <> List.length vols -> QhaRunModel.eos_on s = false \/ List.length ens <> 1 ->
  qha_report K eos_fit float_text u y = (say heading, CliModel.Raises "ValueError") /\ set_apart u tl pl y = false.
Proof.
  intros L M. assert (SD : static_data u y = QhaReaderModel.Raises "ValueError").
  { unfold static_data. rewrite (r_volume _ _ _ _ _ _ _ _ _ RD), (r_energy _ _ _ _ _ _ _ _ _ RD). cbn [QhaReaderModel.bind]. rewrite !all_num, !map_length. cbn [andb].
    destruct (Nat.eqb_spec (List.length vols) (List.length ens)); [congruence|]. replace (QhaRunModel.eos_on s && (List.length ens =? 1))%bool with false; [reflexivity|].
    symmetry. destruct M as [->|M]; [reflexivity|]. apply Nat.eqb_neq in M. rewrite M. apply andb_false_r. }
  split; [unfold qha_report; rewrite heading_ok, SD; now rewrite performing_stops|]. destruct input_exists as (x & E & _). destruct points_exist as (A & B). unfold set_apart. now rewrite SD, E, A, B.
Qed.
Lemma heading_job v ev : CliModel.fs v lf = CliModel.File (RunLogProps.page (opening ++ told_reading ++ heading ++ ev)) -> logged v ["Job: " +++ name].
Proof. intros E. eexists. split; [exact E|]. do 2 apply contains_skip. apply contains_left. now eexists [_], _. Qed.
End Read.

(** ** Runs which are refused or fail *)
Lemma refused text err : started text -> range_ok (temperatures u) -> range_ok (pressures u) -> QhaReaderModel.qha_read_input (yaml_load text) = QhaReaderModel.Ok (Some err, None) ->
  exists v, run_command = (CliModel.Ok tt, v) /\ CliModel.fs v lf = CliModel.File (RunLogProps.page (opening ++ told_reading ++ [err])) /\
  forall q, q <> lf -> CliModel.fs v q = CliModel.fs w q.
Proof.
  intros [_ _ Fi Lo Ni] RT RP E.
  assert (RX : reads text = ([CliModel.Say ("Reading input file: " +++ f); CliModel.Debug "Instantiate file reader"], CliModel.Ok (inl err))) by (unfold qha_read; now rewrite E).
  destruct (RunLogProps.C93_refused CitationsModel.qha_texts command f o silent d calculator a w text err Fi Lo Ni (new_ok RT RP)) as (v & M & S1 & S2).
  - cbn [CliModel.read_input qha_calculator]. now rewrite RX.
  - exists v. split; [exact M|]. split; [|exact S2]. rewrite S1. f_equal. cbn [CliModel.new CliModel.read_input qha_calculator]. rewrite RX.
    rewrite settings_page. f_equal. cbn [fst qha_new]. rewrite heard_reading. reflexivity.
Qed.
Lemma report_fails text j ev e : started text -> range_ok (temperatures u) -> range_ok (pressures u) ->
  reads text = ([CliModel.Say ("Reading input file: " +++ f); CliModel.Debug "Instantiate file reader"], CliModel.Ok (inr j)) -> CliModel.report_input_data j = (ev, CliModel.Raises e) ->
  exists v, run_command = (CliModel.Raises e, v) /\ CliModel.fs v lf = CliModel.File (RunLogProps.page (opening ++ told_reading ++ RunLogProps.voices d ev)) /\
  forall q, q <> lf -> CliModel.fs v q = CliModel.fs w q.
Proof.
  intros [_ _ Fi Lo Ni] RT RP RX RR.
  destruct (RunLogProps.C93_report_raises CitationsModel.qha_texts command f o silent d calculator a w text j e Fi Lo Ni (new_ok RT RP)) as (v & M & S1 & S2).
  - cbn [CliModel.read_input qha_calculator]. now rewrite RX.
  - now rewrite RR.
  - exists v. split; [exact M|]. split; [|exact S2]. rewrite S1. f_equal. cbn [CliModel.new CliModel.read_input qha_calculator]. rewrite RX, RR.
    rewrite settings_page. f_equal. cbn [fst qha_new]. rewrite heard_reading. reflexivity.
Qed.
Lemma run_fails text j ev ev' e : started text -> range_ok (temperatures u) -> range_ok (pressures u) ->
  reads text = ([CliModel.Say ("Reading input file: " +++ f); CliModel.Debug "Instantiate file reader"], CliModel.Ok (inr j)) ->
  CliModel.report_input_data j = (ev, CliModel.Ok tt) -> CliModel.run j = (ev', CliModel.Raises e) ->
  exists v, run_command = (CliModel.Raises e, v) /\ CliModel.fs v lf = CliModel.File (RunLogProps.page (opening ++ told_reading ++ RunLogProps.voices d ev ++ RunLogProps.voices d ev')) /\
  forall q, q <> lf -> CliModel.fs v q = CliModel.fs w q.
Proof.
  intros [_ _ Fi Lo Ni] RT RP RX RR RN.
  destruct (RunLogProps.C93_run_raises CitationsModel.qha_texts command f o silent d calculator a w text j e Fi Lo Ni (new_ok RT RP)) as (v & M & S1 & S2).
  - cbn [CliModel.read_input qha_calculator]. now rewrite RX.
  - now rewrite RR.
  - now rewrite RN.
  - exists v. split; [exact M|]. split; [|exact S2]. rewrite S1. f_equal. cbn [CliModel.new CliModel.read_input qha_calculator]. rewrite RX, RR, RN.
    rewrite settings_page. f_equal. cbn [fst qha_new]. rewrite heard_reading. reflexivity.
Qed.
(** A text which is not YAML, lacks a section, or has fewer than four volumes is
    refused: the reason ends the log, nothing else is written. *)
Theorem C96_refused text : started text -> range_ok (temperatures u) -> range_ok (pressures u) ->
  let ends err := exists v, run_command = (CliModel.Ok tt, v) /\ CliModel.fs v lf = CliModel.File (RunLogProps.page (opening ++ told_reading ++ [err])) /\
    forall q, q <> lf -> CliModel.fs v q = CliModel.fs w q in
  ((forall y, yaml_load text <> QhaReaderModel.Parsed y) -> exists err, ends err) /\
  (forall m, yaml_load text = QhaReaderModel.Parsed (QhaReaderModel.YMap m) -> (exists k, In k ["volume"; "energy"; "phonon"] /\ ~ In k (map fst m)) ->
     exists err, ends err /\ QhaReaderProps.first_missing m err) /\
  (forall m l, yaml_load text = QhaReaderModel.Parsed (QhaReaderModel.YMap m) -> (forall k, In k ["volume"; "energy"; "phonon"] -> In k (map fst m)) ->
     QhaReaderModel.volume (QhaReaderModel.YMap m) = QhaReaderModel.Ok (QhaReaderModel.Array l) -> List.length l < 4 -> ends "Insufficient number of volumes for QHA, at least 4 points are required").
Proof.
  intros ST RT RP ends. split; [|split].
  - intros N. destruct (QhaReaderProps.C41_parse_failure _ N) as (err & E & _). exists err. exact (refused text err ST RT RP E).
  - intros m Y N. destruct (QhaReaderProps.C41_missing_section_reported m N) as (err & E & _ & Fm). rewrite <- Y in E. exists err. split; [exact (refused text err ST RT RP E)|exact Fm].
  - intros m l Y A V L. destruct (QhaReaderProps.C41_four_volumes m l A V) as (E & _). specialize (E L). rewrite <- Y in E. exact (refused text _ ST RT RP E).
Qed.
(** An empty document is not refused: AttributeError. *)
Theorem C96_empty_document_refuted text : started text -> range_ok (temperatures u) -> range_ok (pressures u) -> yaml_load text = QhaReaderModel.Parsed QhaReaderModel.YNull ->
  exists v, run_command = (CliModel.Raises "AttributeError", v) /\ CliModel.fs v lf = CliModel.File (RunLogProps.page (opening ++ told_reading)) /\
  forall q, q <> lf -> CliModel.fs v q = CliModel.fs w q.
Proof.
  intros ST RT RP Y. destruct (report_fails text no_input [] "AttributeError" ST RT RP) as (v & A & B & C); [unfold qha_read; now rewrite Y|reflexivity|].
  cbn [RunLogProps.voices map List.concat] in B. rewrite app_nil_r in B. exists v. auto.
Qed.
(** A step of zero in temperature or pressure: ZeroDivisionError with no message. *)
Theorem C96_zero_step_refuted text : started text -> snd (temperatures u) = 0%R \/ snd (pressures u) = 0%R ->
  exists v, run_command = (CliModel.Raises "ZeroDivisionError", v) /\ CliModel.fs v lf = CliModel.File (RunLogProps.page opening) /\
  forall q, q <> lf -> CliModel.fs v q = CliModel.fs w q.
Proof.
  intros [_ _ Fi Lo Ni] Z.
  destruct (RunLogProps.C93_not_started CitationsModel.qha_texts command f o silent d calculator a w text "ZeroDivisionError" Fi Lo Ni) as (v & M & S1 & S2).
  - cbn [CliModel.new qha_calculator]. unfold qha_new. cbn [snd]. destruct (temperatures u) as [[l h] st], (pressures u) as [[l' h'] st']. cbn [snd] in Z.
    destruct Z as [Z|Z]; [rewrite (proj2 (C43_zero_step l h st) Z)|rewrite (proj2 (C43_zero_step l' h' st') Z)]; [reflexivity|]. now destruct (set_range (l, h, st)).
  - exists v. split; [exact M|]. split; [|exact S2]. rewrite S1. f_equal. rewrite settings_page. cbn [fst qha_new CliModel.new qha_calculator RunLogProps.voices map List.concat]. now rewrite app_nil_r.
Qed.
(** A single number as volume: TypeError. *)
Theorem C96_scalar_volume_refuted text m x : started text -> range_ok (temperatures u) -> range_ok (pressures u) -> yaml_load text = QhaReaderModel.Parsed (QhaReaderModel.YMap m) ->
  (forall k, In k ["volume"; "energy"; "phonon"] -> In k (map fst m)) -> QhaReaderModel.volume (QhaReaderModel.YMap m) = QhaReaderModel.Ok (QhaReaderModel.Scalar x) ->
  exists v, run_command = (CliModel.Raises "TypeError", v) /\ CliModel.fs v lf = CliModel.File (RunLogProps.page (opening ++ told_reading)) /\
  forall q, q <> lf -> CliModel.fs v q = CliModel.fs w q.
Proof.
  intros [_ _ Fi Lo Ni] RT RP Y A V. pose proof (QhaReaderProps.C41_scalar_volume_refuted m x A V) as E. rewrite <- Y in E.
  assert (RX : reads text = ([CliModel.Say ("Reading input file: " +++ f); CliModel.Debug "Instantiate file reader"], CliModel.Raises "TypeError")) by (unfold qha_read; now rewrite E).
  destruct (RunLogProps.C93_broken CitationsModel.qha_texts command f o silent d calculator a w text "TypeError" Fi Lo Ni (new_ok RT RP)) as (v & M & S1 & S2).
  - cbn [CliModel.read_input qha_calculator]. now rewrite RX.
  - exists v. split; [exact M|]. split; [|exact S2]. rewrite S1. f_equal. cbn [CliModel.new CliModel.read_input qha_calculator]. rewrite RX.
    rewrite settings_page. f_equal. cbn [fst qha_new]. now rewrite heard_reading.
Qed.
(** As many energies as volumes are needed, which is not checked: ValueError. *)
Theorem C96_uneven_energies_refuted text y name na nq given cell vols ens wt F : started text -> range_ok (temperatures u) -> range_ok (pressures u) ->
  yaml_load text = QhaReaderModel.Parsed y -> describes y name na nq given cell vols ens wt F -> 4 <= List.length vols -> List.length ens <> List.length vols -> minim u = "poly" \/ List.length ens <> 1 ->
  exists v, run_command = (CliModel.Raises "ValueError", v) /\ logged v ["Job: " +++ name] /\ forall q, q <> lf -> CliModel.fs v q = CliModel.fs w q.
Proof.
  intros ST RT RP Y D L4 L M. destruct cell as [[r1 r2] r3]. pose proof (described_readable _ _ _ _ _ _ _ _ _ _ _ _ D) as RD.
  assert (M' : QhaRunModel.eos_on s = false \/ List.length ens <> 1) by (destruct M as [M|M]; [left|now right]; unfold QhaRunModel.eos_on; cbn [QhaRunModel.minimization qha_settings]; now rewrite M).
  destruct (report_uneven _ _ _ _ _ _ _ _ _ RT RP RD L M') as (RE & SA).
  edestruct (report_fails text (the_job y)) as (v & A & B & C); [exact ST|exact RT|exact RP|exact (reads_text _ _ _ _ _ _ _ _ _ _ Y RD L4 SA)|exact RE|].
  exists v. split; [exact A|]. split; [|exact C]. rewrite hears in B. rewrite <- (app_nil_r (heading _ _ _ _ _ _)) in B. exact (heading_job _ _ _ _ _ _ _ _ B).
Qed.
End Command.

Print Assumptions C96_refused.
Print Assumptions C96_empty_document_refuted.
Print Assumptions C96_zero_step_refuted.
Print Assumptions C96_scalar_volume_refuted.
Print Assumptions C96_uneven_energies_refuted.
