(** C97, continued: the theorems. *)
From Coq Require Import Reals Lra Lia String Ascii List Bool Arith ZArith.
From Verif Require Import Py DecimalModel DecimalProofs FormatModel FormatProofs TableModel ReportModel ReportSpec ReportProofs QhaReportProps
  EosReaderModel EosReaderProps EosReportModel EosReportProps EosCommandModel EosCommandProps.
From Verif Require CliModel CliProofs CliProps RunLogProps CitationsModel HaCommandModel HaCommandProps EosFitModel EosFitProps.
Import ListNotations.
Open Scope string_scope.
Open Scope list_scope.
Open Scope nat_scope.

(** The table of the input in the log. *)
Record tells_input (d : data) (block : list string) : Prop := {
  input_title : contains block ["Job: " +++ job d];
  input_rows : exists ps head bar rows, cols d "p" = Some ps /\ contains block (head :: bar :: rows) /\ says head quantities /\
     Forall2 (fun '(i, p) l => exists v a b c, entry (cols d "v") i v /\ entry (cols d "a") i a /\ entry (cols d "b") i b /\ entry (cols d "c") i c /\
       says l [datum 3 p; v; a; b; c]) (combine (seq 0 (List.length ps)) ps) rows;
  input_weights : forall key name, In (key, name) weights -> In (" - Found weights for " +++ name) block <-> cols d key <> None }.
(** The title page of the log, and the lines around the fits. *)
Definition title_page (f : string) : list string :=
  [""; CitationsModel.quantas_title; ""; "Calculator: Equation of state (EoS) fitting"; ""; "Measurement units"; "-------------------------------------";
   " - pressure:    GPa"; " - lenght:      A"; ""; "Reading input file: " +++ f].
Definition begin_line : string := "#" +++ "----------------" +++ "Interactive equation of state fitting started" +++ "-----------------" +++ "#".
Definition end_line : string := "#" +++ "----------------" +++ "Interactive equation of state fitting finished" +++ "----------------" +++ "#".

Section Command.
Variable guess : list fl -> list fl -> CliModel.result (list R).
Variable parse_int : string -> option nat.
Variable parse_float : string -> option R.
Variable round5 : R -> R.
Variable odr : list fl -> list fl -> option (list fl) -> option (list fl) -> string -> EosFitModel.fit_plan string -> CliModel.result output.
Variable odd : shown -> R.
Variables (f : string) (answers : list string) (w : CliModel.world).
Notation lf := (CliModel.eosfit_log f).
Notation run_command o := (eosfit guess parse_int parse_float round5 odr odd f o answers w).
Notation calculator := (eos_calculator guess parse_int parse_float round5 odr odd f answers).
Notation conversation := (EosCommandModel.conversation guess parse_int parse_float round5 odr odd).
Definition values_in (d : data) (q : string) : list fl := match cols d q with Some xs => xs | None => [] end.
(** What scipy is given: the columns of the file, those of the uncertainties for the weights asked for. *)
Definition scipy (d : data) (q menu : string) (p : EosFitModel.fit_plan string) : CliModel.result output :=
  odr (values_in d q) (values_in d "p") (option_map (fun k => values_in d ("sigma" +++ k)) (EosFitModel.used_sigmaV p))
    (option_map (fun k => values_in d ("sigma" +++ k)) (EosFitModel.used_sigmaP p)) menu p.
Record ready (text : string) : Prop := {
  input_file : CliModel.fs w f = CliModel.File text; log_free : CliModel.fs w lf <> CliModel.Dir; log_not_input : lf <> f }.

Lemma hears_say l : RunLogProps.voices false (HaCommandModel.say l) = l.
Proof. induction l as [|m l IH]; [reflexivity|]. change (RunLogProps.voices false (HaCommandModel.say (m :: l))) with (m :: RunLogProps.voices false (HaCommandModel.say l)). now rewrite IH. Qed.
Lemma title_is f' l : RunLogProps.page (["" ; CliModel.title CitationsModel.eosfit_texts; CliModel.settings eosfit_command] ++ [] ++ ["Reading input file: " +++ f'] ++ l) = RunLogProps.page (title_page f' ++ l).
Proof.
  change (CliModel.settings eosfit_command) with (concat_map (fun l => l +++ nl) settings_lines).
  rewrite HaCommandProps.page_explode. reflexivity.
Qed.
Lemma begins : started = begin_line. Proof. reflexivity. Qed.
Lemma ends : finished = end_line. Proof. reflexivity. Qed.
Notation the_job d := ({| CliModel.report_input_data := report_input d; CliModel.run := run guess parse_int parse_float round5 odr odd d answers;
              CliModel.report_results := ([], CliModel.Ok tt); CliModel.saved := ""; CliModel.exported := [] |}).
Lemma accepted_job text d : accepted text d -> snd (CliModel.read_input calculator text) = CliModel.Ok (inr (the_job d)).
Proof.
  intros (L & q & Q & X). unfold eos_calculator. cbn [CliModel.read_input]. unfold read_input. rewrite L. cbn [snd].
  assert (E : existsb (available d) ["v"; "a"; "b"; "c"] = true). { apply existsb_exists. exists q. split; [exact Q|]. now apply available_is. }
  now rewrite E.
Qed.
Lemma read_lines text : RunLogProps.voices false (fst (CliModel.read_input calculator text)) = ["Reading input file: " +++ f].
Proof. unfold eos_calculator. cbn [CliModel.read_input]. unfold read_input. now destruct (load _ _). Qed.
Lemma input_told text d : accepted text d -> exists input, report_input d = (HaCommandModel.say input, CliModel.Ok tt) /\ tells_input d input.
Proof.
  intros A. destruct (accepted_complete text d A) as (ps & P & C).
  destruct (C89_input d ps P) as (block & E & T & (head & bar & rows & CT & SH & F) & W). { intros q xs _ X. now apply (C q). }
  exists block. split; [unfold report_input; now rewrite E|]. constructor; [exact T| |exact W]. now exists ps, head, bar, rows.
Qed.

(** The log of a session on an accepted file, whatever its outcome. *)
Lemma session_log text d ls o : ready text -> accepted text d -> conversation d (EosFitModel.AtData None) answers = (ls, o) ->
  exists v input, run_command None = (match o with CliModel.Ok _ => CliModel.Ok tt | CliModel.Raises e => CliModel.Raises e end, v) /\
  CliModel.fs v lf = CliModel.File (RunLogProps.page (title_page f ++ input ++ [begin_line; ""] ++ ls ++
    match o with CliModel.Ok _ => RunLogProps.references CitationsModel.eosfit_texts | CliModel.Raises _ => [] end)) /\
  tells_input d input /\ forall p, p <> lf -> CliModel.fs v p = CliModel.fs w p.
Proof.
  intros [R1 R2 R3] A E. destruct (input_told text d A) as (input & EI & TI).
  assert (RN : run guess parse_int parse_float round5 odr odd d answers = (HaCommandModel.say ([started; ""] ++ ls), o)) by (unfold run; now rewrite E).
  destruct (eosfit_log_is CitationsModel.eosfit_texts eosfit_command f calculator w text R1 R2 R3 eq_refl
    (match o with CliModel.Ok _ => CliModel.Ok tt | CliModel.Raises e => CliModel.Raises e end)
    (input ++ ([started; ""] ++ ls) ++ match o with CliModel.Ok _ => RunLogProps.references CitationsModel.eosfit_texts | CliModel.Raises _ => [] end)) as (v & EV & LV & OV).
  { rewrite (accepted_job text d A). cbn [afterwards CliModel.report_input_data CliModel.run]. rewrite EI, RN.
    apply (RunLogProps.adds_bind _ _ _ _ tt).
    - pose proof (RunLogProps.adds_call lf (CliModel.fs w) false false (HaCommandModel.say input, CliModel.Ok tt)) as C. cbn [fst snd] in C. now rewrite hears_say in C.
    - pose proof (RunLogProps.adds_call lf (CliModel.fs w) false false (HaCommandModel.say ([started; ""] ++ ls), o)) as C. cbn [fst snd] in C. rewrite hears_say in C.
      destruct o as [z|e].
      + apply (RunLogProps.adds_bind _ _ _ _ z); [exact C|]. apply RunLogProps.adds_closing.
      + rewrite app_nil_r. now apply RunLogProps.adds_fail. }
  exists v, input. split; [exact EV|]. rewrite read_lines in LV. split; [|split; [exact TI|exact OV]]. rewrite LV. f_equal.
Qed.

(** ** C97 *)
(** Fits asked for one after the other: the command ends normally, and its log
    holds the title page, the input, a report for each fit in the order asked -
    of the data, formulation, order, start values, kept parameters and weights
    asked for - and the references. No other file changes. *)
Theorem C97_session text d ws gs rs : ready text -> accepted text d -> typed_session d parse_int parse_float ws answers -> List.Forall (grantable d) ws ->
  Forall2 (fun w g => guess (values_in d (w_data w)) (values_in d "p") = CliModel.Ok g /\ List.length g = 4) ws gs ->
  Forall2 (fun '(w, g) r => scipy d (w_data w) (w_menu w) (asked w g) = CliModel.Ok r) (combine ws gs) rs ->
  exists v input reports, run_command None = (CliModel.Ok tt, v) /\
  CliModel.fs v lf = CliModel.File (RunLogProps.page (title_page f ++ input ++ [begin_line; ""] ++ reports ++ [end_line] ++ RunLogProps.references CitationsModel.eosfit_texts)) /\
  tells_input d input /\
  minutes (map (fun '((w, g), r) => tells d (w_data w) (w_menu w) (w_order w) (kept_of w) (w_weigh_p w) (w_weigh_v w) r) (combine (combine ws gs) rs)) reports /\
  forall p, p <> lf -> CliModel.fs v p = CliModel.fs w p.
Proof.
  intros RD A T GR GU FT. destruct (accepted_complete text d A) as (ps & P & _).
  assert (VP : values_in d "p" = ps) by (unfold values_in; now rewrite P). rewrite VP in GU.
  destruct (wishes_granted guess parse_int parse_float round5 odr odd d ps P ws answers T gs rs None GR GU FT) as (ls & E & M).
  destruct (session_log text d (ls ++ [finished]) (CliModel.Ok None) RD A E) as (v & input & EV & LV & TI & O).
  exists v, input, ls. split; [exact EV|]. split; [rewrite LV, ends; now rewrite <- !app_assoc|]. split; [exact TI|]. split; [|exact O].
  replace (map _ _) with (map (fun '(w, g, r) => told_fit d (w_data w) (w_menu w) (asked w g) r) (combine (combine ws gs) rs)); [exact M|].
  apply map_ext. intros ((x, g), r). unfold told_fit, asked. cbn [EosFitModel.plan_order EosFitModel.free EosFitModel.used_sigmaP EosFitModel.used_sigmaV].
  destruct (w_weigh_p x), (w_weigh_v x); reflexivity.
Qed.
(** A file in the documented layout is accepted, its rows stand in the log, and
    what scipy is given are its columns. *)
Theorem C97_file text title toks rows : layout (readlines text) title toks rows -> NoDup (List.map lower toks) -> In "p" (List.map lower toks) ->
  (exists q, In q ["v"; "a"; "b"; "c"] /\ In q (List.map lower toks)) ->
  (forall row q n, In row rows -> names_column toks q n -> value row n <> None) ->
  exists d, accepted text d /\ job d = title /\
    (forall q n, names_column toks q n -> EosReaderProps.column rows n (values_in d q)) /\
    (forall q, (forall n, ~ names_column toks q n) -> cols d q = None) /\
    forall input, report_input d = (HaCommandModel.say input, CliModel.Ok tt) -> contains input ["Job: " +++ title] /\
      exists head bar ls, contains input (head :: bar :: ls) /\ says head quantities /\
        Forall2 (fun row l => exists p v a b c, of_file toks row "p" 3 p /\ of_file toks row "v" 5 v /\ of_file toks row "a" 5 a /\
          of_file toks row "b" 5 b /\ of_file toks row "c" 5 c /\ says l [p; v; a; b; c]) rows ls.
Proof.
  intros L ND HP (q0 & Q0 & Q1) V. destruct (C89_file (readlines text) title toks rows class_data L eq_refl eq_refl (fun _ => eq_refl) ND HP V) as (d & block & E & R & J & T).
  destruct (C39_reads (readlines text) title toks rows class_data L eq_refl eq_refl ND HP V) as (d' & E' & J' & Cn & Co). rewrite E in E'. injection E' as <-.
  exists d. split; [|split; [exact J'|split; [|split]]].
  - split; [exact E|]. exists q0. split; [exact Q0|]. apply in_map_iff in Q1. destruct Q1 as (t & Et & It). apply In_nth_error in It. destruct It as (n & En).
    destruct (Cn q0 n) as (xs & X & _); [|now exists xs]. exists t. split; [exact En|]. split; [exact Et|]. cbn [In] in Q0. unfold documented. destruct Q0 as [<-|[<-|[<-|[<-|[]]]]]; cbn; tauto.
  - intros q n N. destruct (Cn q n N) as (xs & X & C). unfold values_in. now rewrite X.
  - intros q N. now rewrite (Co q N).
  - intros input EI. unfold report_input in EI. rewrite R in EI. injection EI as EI.
    assert (X : block = input). { apply (f_equal (RunLogProps.voices false)) in EI. now rewrite !hears_say in EI. } subst block. split; [exact J|exact T].
Qed.

(** Whatever is typed: the command ends normally or, when the answers run out,
    in click's Abort; the log holds the reports of the fits made so far, each of
    data of the file, with a formulation and order of the menu, and weighted only
    with uncertainties of the file. It cannot end normally without a fit. *)
Record proper_fit (d : data) (q menu : string) (p : EosFitModel.fit_plan string) (r : output) : Prop := {
  fit_data : In q ["v"; "a"; "b"; "c"] /\ present d q;
  fit_order : In (menu, EosFitModel.plan_order p) menu_orders;
  fit_linear : EosFitModel.plan_linear p = negb (String.eqb q "v");
  fit_weights : (forall k, EosFitModel.used_sigmaP p = Some k -> k = "p" /\ present d "sigmap") /\
                (forall k, EosFitModel.used_sigmaV p = Some k -> k = q /\ present d ("sigma" +++ q));
  fit_flags : List.length (EosFitModel.free p) = 4;
  fit_result : scipy d q menu p = CliModel.Ok r }.
Section Any.
Variable d : data.
Variable ps : list fl.
Hypothesis pressures : cols d "p" = Some ps.
Hypothesis guesses : forall q, In q ["v"; "a"; "b"; "c"] -> present d q -> exists g, guess (values_in d q) ps = CliModel.Ok g.
Hypothesis fits_end : forall q menu p, exists r, scipy d q menu p = CliModel.Ok r.
Notation turn := (EosCommandModel.turn guess parse_int parse_float round5 odr odd d).
Notation estep := (EosFitModel.step (available d) (fun q => available d (uncertainty q)) (guessed guess d) parse_int parse_float round5 (betas odr odd d)).
Notation inv := (EosFitProps.inv (available d) (fun q => available d (uncertainty q))).
Notation sound := (EosFitProps.sound_fit (available d) (fun q => available d (uncertainty q))).
Definition fit_made : Type := string * string * EosFitModel.fit_plan string * output.
Definition good (x : fit_made) : Prop := let '(q, menu, p, r) := x in proper_fit d q menu p r.
Definition said (x : fit_made) : list string -> Prop := let '(q, menu, p, r) := x in told_fit d q menu p r.
Definition late (st : EosFitModel.point) : Prop :=
  match st with EosFitModel.AtUpdate _ _ | EosFitModel.AtContinue _ | EosFitModel.AtOther _ | EosFitModel.Done => True | _ => False end.
Definition fits_in (es : list EosFitModel.event) : bool := existsb (fun e => match e with EosFitModel.Fitted _ _ _ => true | _ => false end) es.
Lemma events_told es : List.Forall sound es -> exists fits ls, reports odr d es = (ls, CliModel.Ok tt) /\ List.Forall good fits /\ minutes (map said fits) ls /\ (fits = [] -> fits_in es = false).
Proof.
  induction es as [|e es IH]; intros H; [exists [], []; repeat split; [constructor|constructor]|].
  inversion H as [|? ? He Hes]; subst. destruct (IH Hes) as (fits & ls & E & G & M & N). destruct e as [q menu p|].
  - destruct He as (O & D & A & Li & SP & SV & F4). destruct (fits_end q menu p) as (r & Er).
    assert (Pr : present d q) by now apply available_is.
    destruct (report_tells odr d ps pressures q menu p r D Pr O Er) as (block & Eb & T).
    exists ((q, menu, p, r) :: fits), (block ++ ls). cbn [reports]. rewrite Eb, E. split; [reflexivity|]. split; [|split; [constructor; [exact T|exact M]|discriminate]].
    constructor; [|exact G]. constructor; [now split|exact O|exact Li| |exact F4|exact Er]. split.
    + intros k K. destruct (SP k K) as (-> & X). split; [reflexivity|]. now apply available_is.
    + intros k K. destruct (SV k K) as (-> & X). split; [reflexivity|]. now apply available_is.
  - exists fits, ls. cbn [reports report]. rewrite E. split; [reflexivity|]. split; [exact G|]. split; [exact M|exact N].
Qed.
Lemma no_failure st a st' es : inv st -> estep st a = (st', es) -> guess_fails guess d st st' = None.
Proof.
  intros I _. destruct st; try reflexivity. destruct st'; try reflexivity. cbn [guess_fails]. destruct I as ((D & A) & _).
  destruct (EosFitModel.c_guess c); [reflexivity|]. apply available_is in A. destruct (guesses (EosFitModel.c_data c) D A) as (g & G).
  assert (CP : EosCommandModel.column d "p" = ps) by (unfold EosCommandModel.column; now rewrite pressures). rewrite CP. unfold values_in in G. unfold EosCommandModel.column. now rewrite G.
Qed.
Lemma still_late st a : late (fst (estep st a)) -> fits_in (snd (estep st a)) = false -> late st.
Proof.
  assert (DF : forall s fx wp wv, fits_in (snd (EosFitModel.do_fit (guessed guess d) (betas odr odd d) s fx wp wv)) = false -> False) by (intros; discriminate).
  assert (WV : forall s fx wp, late (fst (EosFitModel.ask_weight_v (fun q => available d (uncertainty q)) (guessed guess d) (betas odr odd d) s fx wp)) ->
    fits_in (snd (EosFitModel.ask_weight_v (fun q => available d (uncertainty q)) (guessed guess d) (betas odr odd d) s fx wp)) = false -> False).
  { intros s fx wp. unfold EosFitModel.ask_weight_v. destruct (available d _); [intros []|intros _; apply DF]. }
  assert (AW : forall s fx, late (fst (EosFitModel.ask_weights (fun q => available d (uncertainty q)) (guessed guess d) (betas odr odd d) s fx)) ->
    fits_in (snd (EosFitModel.ask_weights (fun q => available d (uncertainty q)) (guessed guess d) (betas odr odd d) s fx)) = false -> False).
  { intros s fx. unfold EosFitModel.ask_weights. destruct (_ || _)%bool; [intros []|intros _; apply DF]. }
  assert (NX : forall s i, ~ late (EosFitModel.next_param s i)) by (intros s i; unfold EosFitModel.next_param; destruct (_ <? _); intros []).
  intros L F. destruct st; try exact I; cbn [EosFitModel.step] in L, F; unfold EosFitModel.yes_no in L, F.
  - destruct (_ && _)%bool; exact L.
  - destruct (EosFitModel.EOS_ORDERS _); exact L.
  - destruct (EosFitModel.EOS_ORDERS key); [|exact L]. destruct (if (a =? "")%string then _ else _); [|exact L]. destruct (existsb _ _); exact L.
  - destruct (EosFitModel.confirm_answer false a) as [[|]|]; [exact (NX _ _ L)|exact L|exact L].
  - destruct (if (a =? "")%string then _ else _); [exact (NX _ _ L)|exact L].
  - destruct (EosFitModel.confirm_answer false a) as [[|]|]; [exact L|exact (AW _ _ L F)|exact L].
  - destruct (EosFitModel.confirm_answer false a) as [b|]; [|exact L]. cbv zeta in L, F. destruct (_ <? 4); [exact L|exact (AW _ _ L F)].
  - destruct (EosFitModel.confirm_answer true a) as [[|]|]; [|exact (DF _ _ _ _ F)|exact L]. destruct (available d (uncertainty "p")); [exact L|exact (WV _ _ _ L F)].
  - destruct (EosFitModel.confirm_answer true a) as [b|]; [exact (WV _ _ _ L F)|exact L].
  - destruct (EosFitModel.confirm_answer true a) as [b|]; [exact (DF _ _ _ _ F)|exact L].
  - destruct (EosFitModel.confirm_answer false a) as [[|]|]; exact L.
Qed.
Lemma gap_lines st a st' : st' <> EosFitModel.Done -> forall x, In x (between st a st') -> x = "".
Proof. intros N x. destruct st, st'; cbn [between In]; try tauto; try (intros [<-|[]]; reflexivity). destruct (EosFitModel.confirm_answer false a) as [[|]|]; cbn; intuition. Qed.
Lemma any_answers ans : forall st, inv st -> st <> EosFitModel.Done -> exists fits, List.Forall good fits /\
  ((exists ls, conversation d st ans = (ls ++ [finished], CliModel.Ok None) /\ minutes (map said fits) ls /\ (fits = [] -> late st)) \/
   (exists ls, conversation d st ans = (ls, CliModel.Raises "Abort") /\ minutes (map said fits) ls)).
Proof.
  induction ans as [|a ans IH]; intros st I N.
  - exists []. split; [constructor|]. right. exists []. split; [destruct st; (reflexivity || contradiction)|constructor].
  - pose proof (EosFitProps.step_ok (available d) (fun q => available d (uncertainty q)) (guessed guess d) parse_int parse_float round5 (betas odr odd d) st a I) as (I' & SE).
    pose proof (still_late st a) as SL. pose proof (EosFitProps.C64_exit_only_when_declined (available d) (fun q => available d (uncertainty q)) (guessed guess d) parse_int parse_float round5 (betas odr odd d) st a) as EX.
    pose proof (no_failure st a) as NF.
    assert (C : conversation d st (a :: ans) = match turn st a with (ls, CliModel.Raises e) => (ls, CliModel.Raises e) | (ls, CliModel.Ok st') => let (ls', o) := conversation d st' ans in (ls ++ ls', o) end).
    { cbn [EosCommandModel.conversation]. destruct (is_done st) eqn:D; [destruct st; (discriminate D || contradiction)|reflexivity]. }
    rewrite C. unfold EosCommandModel.turn, step. destruct (estep st a) as (st', es) eqn:E. cbn [fst snd] in *.
    rewrite (NF st' es I eq_refl). destruct (events_told es SE) as (f1 & l1 & E1 & G1 & M1 & N1). rewrite E1.
    destruct (is_done st') eqn:D.
    + assert (X : st' = EosFitModel.Done) by (destruct st'; (discriminate D || reflexivity)). subst st'. destruct (EX eq_refl N) as (df & -> & _).
      assert (Z : es = []). { cbn [EosFitModel.step] in E. unfold EosFitModel.yes_no in E. destruct (EosFitModel.confirm_answer false a) as [[|]|]; injection E; congruence. }
      subst es. cbn [reports] in E1. injection E1 as <-. cbn [between app]. exists []. split; [constructor|]. left. exists [].
      assert (CD : conversation d EosFitModel.Done ans = ([], CliModel.Ok None)) by (destruct ans; reflexivity). rewrite CD. split; [reflexivity|]. split; [constructor|]. intros _. exact Logic.I.
    + assert (X : st' <> EosFitModel.Done) by (intros ->; discriminate D). destruct (IH st' I' X) as (f2 & G2 & H).
      pose proof (minutes_blanks _ (gap_lines st a st' X)) as MB. exists (f1 ++ f2). split; [apply Forall_app; now split|]. rewrite map_app.
      destruct H as [(ls & EC & M2 & L2)|(ls & EC & M2)]; rewrite EC; [left|right].
      * exists ((between st a st' ++ l1) ++ ls). split; [now rewrite !app_assoc|]. split.
        -- rewrite <- app_assoc. change (map said f1 ++ map said f2) with ([] ++ map said f1 ++ map said f2). apply minutes_app; [exact MB|]. now apply minutes_app.
        -- intros Z. apply app_eq_nil in Z. destruct Z as (Z1 & Z2). apply SL; [now apply L2|now apply N1].
      * exists ((between st a st' ++ l1) ++ ls). split; [reflexivity|]. rewrite <- app_assoc. change (map said f1 ++ map said f2) with ([] ++ map said f1 ++ map said f2). apply minutes_app; [exact MB|]. now apply minutes_app.
Qed.
End Any.
Theorem C97_any_answers text d : ready text -> accepted text d ->
  (forall q, In q ["v"; "a"; "b"; "c"] -> present d q -> exists g, guess (values_in d q) (values_in d "p") = CliModel.Ok g) ->
  (forall q menu p, exists r, scipy d q menu p = CliModel.Ok r) ->
  exists v input reports fits, List.Forall (fun '(q, menu, p, r) => proper_fit d q menu p r) fits /\
  minutes (map (fun '(q, menu, p, r) => tells d q menu (EosFitModel.plan_order p) (EosFitModel.free p)
    (match EosFitModel.used_sigmaP p with Some _ => true | None => false end) (match EosFitModel.used_sigmaV p with Some _ => true | None => false end) r) fits) reports /\
  tells_input d input /\ (forall p, p <> lf -> CliModel.fs v p = CliModel.fs w p) /\
  ((fits <> [] /\ run_command None = (CliModel.Ok tt, v) /\
    CliModel.fs v lf = CliModel.File (RunLogProps.page (title_page f ++ input ++ [begin_line; ""] ++ reports ++ [end_line] ++ RunLogProps.references CitationsModel.eosfit_texts))) \/
   (run_command None = (CliModel.Raises "Abort", v) /\
    CliModel.fs v lf = CliModel.File (RunLogProps.page (title_page f ++ input ++ [begin_line; ""] ++ reports)))).
Proof.
  intros RD A GU FE. destruct (accepted_complete text d A) as (ps & P & _).
  assert (VP : values_in d "p" = ps) by (unfold values_in; now rewrite P). rewrite VP in GU.
  destruct (any_answers d ps P GU FE answers (EosFitModel.AtData None) Logic.I ltac:(discriminate)) as (fits & G & [(ls & E & M & L)|(ls & E & M)]).
  - destruct (session_log text d _ _ RD A E) as (v & input & EV & LV & TI & O). exists v, input, ls, fits. split; [exact G|]. split; [exact M|]. split; [exact TI|]. split; [exact O|].
    left. split; [intros Z; exact (L Z)|]. split; [exact EV|]. rewrite LV, ends. now rewrite <- !app_assoc.
  - destruct (session_log text d _ _ RD A E) as (v & input & EV & LV & TI & O). exists v, input, ls, fits. split; [exact G|]. split; [exact M|]. split; [exact TI|]. split; [exact O|].
    right. split; [exact EV|]. rewrite LV. now rewrite app_nil_r.
Qed.
End Command.

Print Assumptions C97_session.
Print Assumptions C97_file.
Print Assumptions C97_any_answers.
