(** C97, continued: what the equation of state command does with input it cannot
    use, and concrete sessions. *)
From Coq Require Import Reals Lra Lia String Ascii List Bool Arith ZArith.
From Verif Require Import Py DecimalModel DecimalProofs FormatModel FormatProofs TableModel ReportModel ReportSpec ReportProofs QhaReportProps
  EosReaderModel EosReaderProps EosReportModel EosReportProps EosCommandModel EosCommandProps EosCommandProps2.
From Verif Require CliModel CliProofs CliProps RunLogProps CitationsModel HaCommandModel HaCommandProps EosFitModel EosFitProps.
Import ListNotations.
Open Scope string_scope.
Open Scope list_scope.
Open Scope nat_scope.

(** ** Rows which cannot be read *)
Lemma row_values_bad f row : ~ readable f row -> row_values f (split row) = inr "IndexError" \/ row_values f (split row) = inr "ValueError".
Proof.
  induction f as [|(q, n) f IH]; intros H; [exfalso; apply H; constructor|]. cbn [row_values].
  destruct (nth_error (split row) n) as [t|] eqn:E; [|now left]. destruct (parse_float t) as [x|] eqn:P; [|now right].
  destruct IH as [-> | ->]; [|now left|now right]. intros F. apply H. constructor; [|exact F]. unfold value. cbn [snd]. rewrite E. congruence.
Qed.
Lemma readable_dec f row : readable f row \/ ~ readable f row.
Proof.
  induction f as [|(q, n) f [IH|IH]]; [left; constructor| |].
  - destruct (value row n) eqn:V; [left; constructor; [cbn [snd]; congruence|exact IH]|]. right. intros F. inversion F as [|? ? X Y]; subst. cbn [snd] in X. contradiction.
  - right. intros F. inversion F. contradiction.
Qed.
Lemma table_bad f rows row : In row rows -> List.Forall (fun l => is_comment l = false) rows -> ~ readable f row ->
  table f rows = inr "IndexError" \/ table f rows = inr "ValueError".
Proof.
  induction rows as [|l rows IH]; intros I C H; [destruct I|]. inversion C as [|? ? Cl Cr]; subst. cbn [table]. rewrite Cl.
  destruct (readable_dec f l) as [R0|R0].
  - destruct (row_values_ok f l R0) as (xs & -> & _). destruct I as [->|I]; [contradiction|]. destruct (IH I Cr H) as [-> | ->]; [now left|now right].
  - destruct (row_values_bad f l R0) as [-> | ->]; [now left|now right].
Qed.
(** A row without a readable number in a named column: the reader raises. *)
Lemma unreadable lines title toks rows row q n : layout lines title toks rows -> NoDup (List.map lower toks) -> In "p" (List.map lower toks) ->
  In row rows -> names_column toks q n -> value row n = None ->
  snd (load lines class_data) = Raised "IndexError" \/ snd (load lines class_data) = Raised "ValueError".
Proof.
  intros (c0 & kj & c1 & tl & c2 & kf & c3 & fl & c4 & kd & body & -> & C0 & C1 & C2 & C3 & C4 & G1 & Kj & Kf & Kd & Tl & Tu & Tp & Ts & Th & Fp & Ft & B & Rp) ND HP I N V.
  subst title. set (d1 := set_job class_data (chomp tl)). set (d2 := set_fmt d1 (add_tokens 0 toks [])).
  assert (GN : forall q n, names_column toks q n -> get q (fmt d2) = Some n).
  { intros q' n' (t & E & L & K). cbn [fmt d2 set_fmt]. rewrite (get_add q' 0 n' toks [] t ND E L); [reflexivity|]. now apply mem_in. }
  assert (KP : has_key "p" (fmt d2) = true).
  { apply has_key_get. apply in_map_iff in HP. destruct HP as (t & L & T). apply In_nth_error in T. destruct T as (j & T). exists j. apply GN.
    exists t. split; [exact T|]. split; [exact L|]. simpl. auto. }
  assert (NR : ~ readable (fmt d2) row).
  { intros F. unfold readable in F. rewrite Forall_forall in F. apply (F (q, n)); [|exact V].
    specialize (GN q n N). revert GN. generalize (fmt d2). intros f. induction f as [|(q', n') f IHf]; simpl; [discriminate|].
    destruct (String.eqb_spec q q') as [->|]; [intros E; injection E as ->; now left|]. intros E. right. now apply IHf. }
  assert (T : table (fmt d2) body = inr "IndexError" \/ table (fmt d2) body = inr "ValueError").
  { rewrite table_payload, B. apply (table_bad _ _ row I); [|exact NR]. eapply Forall_impl; [|exact Rp]. intros l (H & _). exact H. }
  unfold load. rewrite load_comments by exact C0. rewrite load_job by exact Kj. unfold set_job_name. change (job class_data) with "Unknown". rewrite String.eqb_refl.
  rewrite job_gap by assumption. fold d1. rewrite load_comments by exact C1. rewrite load_plain by exact Tp.
  rewrite load_comments by exact C2. rewrite load_format by exact Kf. rewrite format_gap by (try exact C3; apply Fp).
  change (fmt d1) with (@nil (string * nat)). rewrite Ft. fold d2.
  rewrite load_comments by exact C3. rewrite load_plain by exact Fp. rewrite load_comments by exact C4.
  rewrite load_data by exact Kd. unfold set_data. destruct (fmt d2) as [|x l]; [discriminate KP|]. rewrite KP.
  destruct T as [-> | ->]; [now left|now right].
Qed.

Section Command.
Variable guess : list fl -> list fl -> CliModel.result (list R).
Variable parse_int : string -> option nat.
Variable parse_float : string -> option R.
Variable round5 : R -> R.
Variable odr : list fl -> list fl -> option (list fl) -> option (list fl) -> string -> EosFitModel.fit_plan string -> CliModel.result output.
Variable odd : shown -> R.
Variables (f : string) (answers : list string) (w : CliModel.world).
Notation lf := (CliModel.eosfit_log f).
Notation run_command o := (eosfit guess parse_int parse_float round5 odr odd f o answers w).
Notation calculator := (eos_calculator guess parse_int parse_float round5 odr odd f answers).
(** The run ended with [r], the log holds the title page and these lines, no other file changed. *)
Definition left_with (r : CliModel.result unit) (lines : list string) : Prop :=
  exists v, run_command None = (r, v) /\ CliModel.fs v lf = CliModel.File (RunLogProps.page (title_page f ++ lines)) /\
  forall p, p <> lf -> CliModel.fs v p = CliModel.fs w p.
Lemma refused text m : ready f w text -> snd (CliModel.read_input calculator text) = CliModel.Ok (inl m) -> left_with (CliModel.Ok tt) [m].
Proof.
  intros [R1 R2 R3] E. destruct (eosfit_log_is CitationsModel.eosfit_texts eosfit_command f calculator w text R1 R2 R3 eq_refl (CliModel.Ok tt) [m]) as (v & EV & LV & O).
  { rewrite E. cbn [afterwards]. apply (RunLogProps.adds_bind _ _ _ _ tt _ [] [m]); [apply RunLogProps.adds_error_screen|apply RunLogProps.adds_error]. }
  exists v. split; [exact EV|]. split; [|exact O]. rewrite read_lines in LV. rewrite LV. f_equal.
Qed.
Lemma raised text e : ready f w text -> snd (CliModel.read_input calculator text) = CliModel.Raises e -> left_with (CliModel.Raises e) [].
Proof.
  intros [R1 R2 R3] E. destruct (eosfit_log_is CitationsModel.eosfit_texts eosfit_command f calculator w text R1 R2 R3 eq_refl (CliModel.Raises e) []) as (v & EV & LV & O).
  { rewrite E. cbn [afterwards]. apply RunLogProps.adds_raise. }
  exists v. split; [exact EV|]. split; [|exact O]. rewrite read_lines in LV. rewrite LV. f_equal.
Qed.
Lemma raised_load text e : ready f w text -> snd (load (readlines text) class_data) = Raised e -> left_with (CliModel.Raises e) [].
Proof.
  intros RD E. apply (raised text e RD). unfold eos_calculator. cbn [CliModel.read_input]. unfold read_input. destruct (load (readlines text) class_data) as (d & o). cbn [snd] in *. now rewrite E.
Qed.

(** A file with pressures but neither volume nor axis is refused by name: the
    command says so, in the log too, and ends normally. *)
Theorem C97_no_structure text title toks rows : ready f w text -> layout (readlines text) title toks rows -> NoDup (List.map lower toks) -> In "p" (List.map lower toks) ->
  (forall q, In q ["v"; "a"; "b"; "c"] -> ~ In q (List.map lower toks)) ->
  (forall row q n, In row rows -> names_column toks q n -> value row n <> None) ->
  left_with (CliModel.Ok tt) ["No structural data provided in input file"].
Proof.
  intros RD L ND HP NS V. apply (refused text _ RD). destruct (C39_reads (readlines text) title toks rows class_data L eq_refl eq_refl ND HP V) as (d & E & _ & _ & Co).
  unfold eos_calculator. cbn [CliModel.read_input]. unfold read_input. rewrite E. cbn [snd].
  assert (Z : existsb (available d) ["v"; "a"; "b"; "c"] = false).
  { destruct (existsb (available d) ["v"; "a"; "b"; "c"]) eqn:X; [|reflexivity]. exfalso. apply existsb_exists in X. destruct X as (q & Q & A). apply available_is in A. destruct A as (xs & A).
    rewrite (Co q) in A; [discriminate A|]. intros n (t & Et & Lt & _). apply (NS q Q). apply in_map_iff. exists t. split; [exact Lt|now apply nth_error_In in Et]. }
  rewrite Z. reflexivity.
Qed.
(** Data before the FORMAT line: refused by name. *)
Theorem C97_no_format text pre k rest : ready f w text -> readlines text = pre ++ k :: rest -> List.Forall neutral pre -> keyword k = "data" -> List.Forall neutral rest ->
  left_with (CliModel.Ok tt) ["Data format (FORMAT keyword) not provided"].
Proof.
  intros RD E N K M. apply (refused text _ RD). destruct (C40_data_before_format pre k rest class_data N K eq_refl) as (_ & X). specialize (X M).
  unfold eos_calculator. cbn [CliModel.read_input]. unfold read_input. rewrite E, X. reflexivity.
Qed.
(** No pressures among the columns: an exception instead of the message meant
    for it (EoSInputFileReader writes it after looking up the column). *)
Theorem C97_no_pressure_refuted text pre kf c fl mid k rest : ready f w text -> readlines text = pre ++ kf :: c ++ fl :: mid ++ k :: rest ->
  List.Forall neutral pre -> keyword kf = "format" -> comments c -> plain fl -> List.Forall neutral mid -> keyword k = "data" ->
  ~ In "p" (List.map lower (split fl)) -> (exists t, In t (split fl) /\ In (lower t) documented) ->
  left_with (CliModel.Raises "KeyError") [].
Proof.
  intros RD E N Kf C Fp M K NP T. apply (raised_load text _ RD). rewrite E. now apply C40_no_pressure_raises.
Qed.
(** A row with a missing or unreadable number in a named column: an exception. *)
Theorem C97_bad_row_refuted text title toks rows row q n : ready f w text -> layout (readlines text) title toks rows -> NoDup (List.map lower toks) -> In "p" (List.map lower toks) ->
  In row rows -> names_column toks q n -> value row n = None ->
  left_with (CliModel.Raises "IndexError") [] \/ left_with (CliModel.Raises "ValueError") [].
Proof.
  intros RD L ND HP I N V. destruct (unreadable _ _ _ _ row q n L ND HP I N V) as [E|E]; [left|right]; now apply (raised_load text _ RD).
Qed.
(** With -o the command raises before it does anything (C62). *)
Theorem C97_named_refuted o text : CliModel.fs w f = CliModel.File text -> run_command (Some o) = (CliModel.Raises "UnboundLocalError", w).
Proof. intros E. apply CliProps.C62_eosfit_named. now rewrite E. Qed.
(** Data on which the first guess cannot be made (np.polyfit raises): the run
    ends with that exception once the formulation and order are chosen, with no
    report in the log. *)
Theorem C97_guess_fails text d q menu o order e rest : ready f w text -> accepted text d -> answers = [q; menu; o] ++ rest ->
  In q ["v"; "a"; "b"; "c"] -> present d q -> In (menu, order) menu_orders -> o <> "" -> parse_int o = Some order ->
  guess (values_in d q) (values_in d "p") = CliModel.Raises e ->
  exists input, tells_input d input /\ left_with (CliModel.Raises e) (input ++ [begin_line; ""; ""]).
Proof.
  intros RD A EA Q Pr MO NO PO G. set (wi := {| w_data := q; w_menu := menu; w_order := order; w_start := None; w_keep := None; w_weigh_p := false; w_weigh_v := false |}).
  assert (GR : grantable d wi) by (constructor; cbn; [now split|exact MO|discriminate|discriminate|split; discriminate]).
  destruct (order_known _ _ MO) as (os & Eo & Io & Nm).
  assert (C : conversation guess parse_int parse_float round5 odr odd d (EosFitModel.AtData None) answers = ([""], CliModel.Raises e)).
  { rewrite EA. pose proof (choose_data guess parse_int parse_float round5 odr odd d wi None GR ([menu; o] ++ rest)) as X. cbn [w_data wi app] in X. cbn [app]. rewrite X. clear X.
    set (c := {| EosFitModel.c_data := q; EosFitModel.c_guess := None; EosFitModel.c_defaults := None |}).
    assert (Y : conversation guess parse_int parse_float round5 odr odd d (EosFitModel.AtEos c) (menu :: o :: rest) = ([], CliModel.Raises e)); [|now rewrite Y].
    cbn [conversation is_done]. unfold turn at 1, EosCommandModel.step. cbn [EosFitModel.step]. destruct (String.eqb_spec menu ""); [contradiction|]. rewrite Eo. cbn [guess_fails reports between].
    unfold turn at 1, EosCommandModel.step. cbn [EosFitModel.step]. rewrite Eo. destruct (String.eqb_spec o ""); [contradiction|]. rewrite PO, Io.
    cbn [guess_fails EosFitModel.c_guess EosFitModel.c_data c]. unfold EosCommandModel.column. unfold values_in in G. rewrite G. reflexivity. }
  destruct (session_log guess parse_int parse_float round5 odr odd f answers w text d [""] (CliModel.Raises e) RD A C) as (v & input & EV & LV & TI & O).
  exists input. split; [exact TI|]. exists v. split; [exact EV|]. split; [|exact O]. rewrite LV. cbn [app]. reflexivity.
Qed.
End Command.

(** ** Concrete runs *)
Definition file_of (ls : list string) : string := concat_map (fun l => l +++ nl) ls.
Definition quartz_rows : list string := ["112.981 0.002 0.0001 0.01" +++ nl; "111.725 0.005 0.429 0.01" +++ nl].
Definition desk (name text : string) : CliModel.world := {| CliModel.fs := fun p => if String.eqb p name then CliModel.File text else CliModel.Absent; CliModel.screen := [] |}.
Lemma desk_ready text : ready "quartz.dat" (desk "quartz.dat" text) text.
Proof. constructor; [reflexivity|discriminate|discriminate]. Qed.
Lemma plain_line l : is_comment l = false -> existsb (String.eqb (keyword l)) keywords = false -> plain l.
Proof.
  intros C K. split; [exact C|]. intros I. assert (X : existsb (String.eqb (keyword l)) keywords = true); [|congruence].
  apply existsb_exists. exists (keyword l). split; [exact I|apply String.eqb_refl].
Qed.
Lemma quartz_layout : layout (readlines (file_of quartz)) "Quartz, Angel et al." ["v"; "SigmaV"; "P"; "sigp"] quartz_rows.
Proof.
  exists ["# Quartz" +++ nl], ("job" +++ nl), [], ("Quartz, Angel et al." +++ nl), [], ("format" +++ nl), [], ("v SigmaV P sigp" +++ nl), [], ("data" +++ nl),
    ["112.981 0.002 0.0001 0.01" +++ nl; "# dac" +++ nl; "111.725 0.005 0.429 0.01" +++ nl].
  unfold comments. repeat match goal with |- _ /\ _ => split end; try reflexivity; try discriminate; try (apply plain_line; reflexivity);
  repeat (apply Forall_cons; [try reflexivity; apply plain_line; reflexivity|]); apply Forall_nil.
Qed.
Lemma quartz_distinct : NoDup (List.map lower ["v"; "SigmaV"; "P"; "sigp"]).
Proof. simpl. repeat apply NoDup_cons; try apply NoDup_nil; simpl; intuition discriminate. Qed.
Lemma quartz_values row q n : In row quartz_rows -> names_column ["v"; "SigmaV"; "P"; "sigp"] q n -> value row n <> None.
Proof.
  intros I (t & E & _). assert (n < 4) by (apply (proj1 (nth_error_Some ["v"; "SigmaV"; "P"; "sigp"] n)); congruence).
  destruct I as [<-|[<-|[]]]; destruct n as [|[|[|[|n]]]]; try lia; vm_compute; discriminate.
Qed.
(** A weighted third order fit of the volumes with K0 kept, start values as guessed. *)
Definition one_wish : wish := {| w_data := "v"; w_menu := "2"; w_order := 3; w_start := None; w_keep := Some [true; false; false; false]; w_weigh_p := false; w_weigh_v := true |}.
Definition one_typed : list string := ["v"; "2"; "3"; "n"; "Y"; "yes"; "n"; "no"; "N"; "y"; "y"; "n"; "n"; "n"].
Definition read_order (s : string) : option nat := if String.eqb s "3" then Some 3 else None.
Definition any_guess (_ _ : list fl) : CliModel.result (list R) := CliModel.Ok [100; 4; 0; 113]%R.
Definition any_fit (_ _ : list fl) (_ _ : option (list fl)) (_ : string) (_ : EosFitModel.fit_plan string) : CliModel.result output := CliModel.Ok fit_of_two.
Example C97_instance : exists d v log block,
  accepted (file_of quartz) d /\ job d = "Quartz, Angel et al." /\ EosReaderProps.column quartz_rows 0 (values_in d "v") /\
  typed_session d read_order (fun _ => None) [one_wish] one_typed /\ grantable d one_wish /\
  eosfit any_guess read_order (fun _ => None) (fun x => x) any_fit (fun _ => 0%R) "quartz.dat" None one_typed (desk "quartz.dat" (file_of quartz)) = (CliModel.Ok tt, v) /\
  CliModel.fs v "quartz.log" = CliModel.File (RunLogProps.page log) /\ CliModel.fs v "quartz.dat" = CliModel.File (file_of quartz) /\
  contains log block /\ tells d "v" "2" 3 [0; 1; 1; 1] false true fit_of_two block.
Proof.
  destruct (C39_reads (readlines (file_of quartz)) _ _ _ class_data quartz_layout eq_refl eq_refl quartz_distinct ltac:(cbn; tauto) quartz_values) as (d & E & J & Cn & Co).
  assert (DV : exists xs, cols d "v" = Some xs /\ EosReaderProps.column quartz_rows 0 xs) by (apply Cn; exists "v"; repeat split; cbn; tauto).
  assert (DS : exists xs, cols d "sigmav" = Some xs /\ EosReaderProps.column quartz_rows 1 xs) by (apply Cn; exists "SigmaV"; repeat split; cbn; tauto).
  assert (DP : cols d "sigmap" = None).
  { rewrite (Co "sigmap"); [reflexivity|]. intros n (t & Et & Lt & _). apply nth_error_In in Et. cbn in Et. destruct Et as [<-|[<-|[<-|[<-|[]]]]]; discriminate Lt. }
  destruct DV as (vs & V1 & V2). destruct DS as (ss & S1 & _).
  assert (A : accepted (file_of quartz) d). { split; [exact E|]. exists "v". split; [now left|]. now exists vs. }
  assert (TS : typed_session d read_order (fun _ => None) [one_wish] one_typed).
  { apply (typed_last d read_order (fun _ => None) one_wish ["v"; "2"; "3"; "n"; "Y"; "yes"; "n"; "no"; "N"; "y"; "y"; "n"; "n"] "n" []); [|cbn; tauto].
    apply (typed_all d read_order (fun _ => None) one_wish "3" ["n"] ["Y"; "yes"; "n"; "no"; "N"] ["y"; "y"] "n" "n" false); try discriminate; try reflexivity; try (cbn; tauto).
    - apply start_as_guessed. cbn; tauto.
    - apply (keep_some "Y" [true; false; false; false] ["yes"; "n"; "no"; "N"]); [cbn; tauto|]. repeat (apply Forall2_cons; [cbn; tauto|]). apply Forall2_nil.
    - apply (weights_asked d one_wish "y" [] ["y"]); [right; now exists ss|cbn; tauto|now apply weight_absent|]. apply weight_asked; [now exists ss|cbn; tauto]. }
  assert (GR : grantable d one_wish).
  { constructor; cbn; [split; [tauto|now exists vs]|tauto|discriminate| |].
    - intros bs H. injection H as <-. reflexivity.
    - split; [discriminate|]. intros _. now exists ss. }
  destruct (C97_session any_guess read_order (fun _ => None) (fun x => x) any_fit (fun _ => 0%R) "quartz.dat" one_typed (desk "quartz.dat" (file_of quartz)) (file_of quartz) d [one_wish] [[100; 4; 0; 113]%R] [fit_of_two]
    (desk_ready _) A TS ltac:(constructor; [exact GR|constructor]) ltac:(constructor; [split; reflexivity|constructor]) ltac:(constructor; [reflexivity|constructor])) as (v & input & rep & EV & LV & TI & M & O).
  cbn [combine map] in M.
  assert (B : exists a block b, rep = a ++ block ++ b /\ tells d "v" "2" 3 [0; 1; 1; 1] false true fit_of_two block).
  { remember [_] as ts eqn:Et in M. clear - M Et. induction M as [|ts ls M IH|t ts block ls T M _]; [discriminate Et| |].
    - destruct (IH Et) as (a & block & b & -> & T). now exists ("" :: a), block, b.
    - injection Et as -> _. exists [], block, ls. split; [reflexivity|exact T]. }
  destruct B as (a & block & b & -> & T).
  exists d, v, (title_page "quartz.dat" ++ input ++ [begin_line; ""] ++ (a ++ block ++ b) ++ [end_line] ++ RunLogProps.references CitationsModel.eosfit_texts), block.
  split; [exact A|]. split; [exact J|]. split; [unfold values_in; now rewrite V1|]. split; [exact TS|]. split; [exact GR|]. split; [exact EV|]. split; [exact LV|].
  split; [rewrite (O "quartz.dat") by discriminate; reflexivity|]. split; [|exact T].
  exists (title_page "quartz.dat" ++ input ++ [begin_line; ""] ++ a), (b ++ [end_line] ++ RunLogProps.references CitationsModel.eosfit_texts). now rewrite <- !app_assoc.
Qed.
(** Input which cannot be used. *)
Definition only_pressures : list string := ["job"; "Empty"; "format"; "P"; "data"; "1.0"; "2.0"].
Example C97_no_structure_instance :
  layout (readlines (file_of only_pressures)) "Empty" ["P"] ["1.0" +++ nl; "2.0" +++ nl] /\ NoDup (List.map lower ["P"]) /\ In "p" (List.map lower ["P"]) /\
  (forall q, In q ["v"; "a"; "b"; "c"] -> ~ In q (List.map lower ["P"])) /\
  (forall row q n, In row ["1.0" +++ nl; "2.0" +++ nl] -> names_column ["P"] q n -> value row n <> None).
Proof.
  split; [|split; [|split; [|split]]].
  - exists [], ("job" +++ nl), [], ("Empty" +++ nl), [], ("format" +++ nl), [], ("P" +++ nl), [], ("data" +++ nl), ["1.0" +++ nl; "2.0" +++ nl].
    unfold comments. repeat match goal with |- _ /\ _ => split end; try reflexivity; try discriminate; try (apply plain_line; reflexivity);
    repeat (apply Forall_cons; [try reflexivity; apply plain_line; reflexivity|]); apply Forall_nil.
  - simpl. repeat constructor. intros [].
  - now left.
  - intros q Q X. destruct X as [<-|[]]. cbn in Q. intuition discriminate.
  - intros row q n I (t & E & _). destruct n as [|[|n]]; try discriminate E. destruct I as [<-|[<-|[]]]; vm_compute; discriminate.
Qed.
Example C97_no_format_instance : readlines (file_of ["data"; "1 2"]) = [] ++ ("data" +++ nl) :: ["1 2" +++ nl] /\ keyword ("data" +++ nl) = "data" /\ neutral ("1 2" +++ nl).
Proof. split; [reflexivity|]. split; [reflexivity|]. exact (proj2 (plain_line ("1 2" +++ nl) eq_refl eq_refl)). Qed.
Example C97_no_pressure_instance : readlines (file_of ["format"; "V A"; "data"; "1 2"]) = [] ++ ("format" +++ nl) :: [] ++ ("V A" +++ nl) :: [] ++ ("data" +++ nl) :: ["1 2" +++ nl] /\
  plain ("V A" +++ nl) /\ ~ In "p" (List.map lower (split ("V A" +++ nl))) /\ exists t, In t (split ("V A" +++ nl)) /\ In (lower t) documented.
Proof. split; [reflexivity|]. split; [apply plain_line; reflexivity|]. split; [intros X; vm_compute in X; destruct X as [X|[X|[]]]; discriminate X|]. exists "V". split; vm_compute; tauto. Qed.
Definition one_bad : list string := ["job"; "Quartz"; "format"; "P V"; "data"; "0.0 112.9"; "1.0 n.d."].
Example C97_bad_row_instance :
  layout (readlines (file_of one_bad)) "Quartz" ["P"; "V"] ["0.0 112.9" +++ nl; "1.0 n.d." +++ nl] /\ names_column ["P"; "V"] "v" 1 /\ value ("1.0 n.d." +++ nl) 1 = None /\
  snd (load (readlines (file_of one_bad)) class_data) = Raised "ValueError" /\
  snd (load (readlines (file_of ["job"; "Quartz"; "format"; "P V"; "data"; "0.0 112.9"; "1.0"])) class_data) = Raised "IndexError".
Proof.
  split; [|split; [|split; [|split]]]; try reflexivity.
  - exists [], ("job" +++ nl), [], ("Quartz" +++ nl), [], ("format" +++ nl), [], ("P V" +++ nl), [], ("data" +++ nl), ["0.0 112.9" +++ nl; "1.0 n.d." +++ nl].
    unfold comments. repeat match goal with |- _ /\ _ => split end; try reflexivity; try discriminate; try (apply plain_line; reflexivity);
    repeat (apply Forall_cons; [try reflexivity; apply plain_line; reflexivity|]); apply Forall_nil.
  - exists "V". repeat split. cbn. tauto.
Qed.
(** Data which cannot be guessed on, and answers which are no choices. *)
Example C97_guess_fails_instance : exists d, accepted (file_of quartz) d /\ present d "v" /\ In ("2", 3) menu_orders /\ read_order "3" = Some 3 /\
  exists input, left_with (fun _ _ => CliModel.Raises "LinAlgError") read_order (fun _ => None) (fun x => x) any_fit (fun _ => 0%R) "quartz.dat" ["v"; "2"; "3"; "n"] (desk "quartz.dat" (file_of quartz))
    (CliModel.Raises "LinAlgError") (input ++ [begin_line; ""; ""]).
Proof.
  destruct C97_instance as (d & _ & _ & _ & A & _ & _ & _ & GR & _). exists d. split; [exact A|]. destruct (g_data _ _ GR) as (_ & Pr). split; [exact Pr|].
  split; [cbn; tauto|]. split; [reflexivity|].
  destruct (C97_guess_fails (fun _ _ => CliModel.Raises "LinAlgError") read_order (fun _ => None) (fun x => x) any_fit (fun _ => 0%R) "quartz.dat" ["v"; "2"; "3"; "n"] (desk "quartz.dat" (file_of quartz))
    (file_of quartz) d "v" "2" "3" 3 "LinAlgError" ["n"] (desk_ready _) A eq_refl ltac:(now left) Pr ltac:(cbn; tauto) ltac:(discriminate) eq_refl eq_refl) as (input & _ & L).
  now exists input.
Qed.
Example C97_any_answers_instance : exists d v log,
  (forall q, In q ["v"; "a"; "b"; "c"] -> present d q -> exists g, any_guess (values_in d q) (values_in d "p") = CliModel.Ok g) /\
  (forall q menu p, exists r, scipy any_fit d q menu p = CliModel.Ok r) /\
  eosfit any_guess read_order (fun _ => None) (fun x => x) any_fit (fun _ => 0%R) "quartz.dat" None ["x"; "v"; "7"] (desk "quartz.dat" (file_of quartz)) = (CliModel.Raises "Abort", v) /\
  CliModel.fs v "quartz.log" = CliModel.File (RunLogProps.page log).
Proof.
  destruct C97_instance as (d & _ & _ & _ & A & _ & _ & _ & GR & _). exists d.
  assert (C : conversation any_guess read_order (fun _ => None) (fun x => x) any_fit (fun _ => 0%R) d (EosFitModel.AtData None) ["x"; "v"; "7"] = ([""], CliModel.Raises "Abort")).
  { pose proof (choose_data any_guess read_order (fun _ => None) (fun x => x) any_fit (fun _ => 0%R) d one_wish None GR ["7"]) as X. cbn [w_data one_wish app] in X.
    assert (Y : turn any_guess read_order (fun _ => None) (fun x => x) any_fit (fun _ => 0%R) d (EosFitModel.AtData None) "x" = ([], CliModel.Ok (EosFitModel.AtData None))).
    { unfold turn, EosCommandModel.step. cbn [EosFitModel.step]. change (mem "x" EosFitModel.DATA_TYPES) with false. reflexivity. }
    cbn [conversation is_done] in X |- *. rewrite Y, X. reflexivity. }
  destruct (session_log any_guess read_order (fun _ => None) (fun x => x) any_fit (fun _ => 0%R) "quartz.dat" ["x"; "v"; "7"] (desk "quartz.dat" (file_of quartz)) (file_of quartz) d _ _ (desk_ready _) A C) as (v & input & EV & LV & _).
  eexists v, _. split; [intros q _ _; eexists; reflexivity|]. split; [intros q menu p; eexists; reflexivity|]. split; [exact EV|exact LV].
Qed.

Print Assumptions C97_no_structure.
Print Assumptions C97_no_format.
Print Assumptions C97_no_pressure_refuted.
Print Assumptions C97_bad_row_refuted.
Print Assumptions C97_named_refuted.
Print Assumptions C97_guess_fails.
