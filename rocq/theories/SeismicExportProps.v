(** C107: `quantas export seismic FILE`, from the result file and the lines typed to
    the tables. *)
From Coq Require Import Reals String Ascii List Bool Arith ZArith Lia Permutation.
From Verif Require CliModel CliProps CitationsModel EosFitModel.
From Verif Require Import Py DecimalModel DecimalProofs FormatModel FormatProofs YamlSpec TableModel TableProofs TableProps StoreModel SoecTableModel SoecTableProofs SoecTableProps H5Props.
From Verif Require Import ExportCommandProps ExportCommandProps2 ExportScreenProps.
From Verif Require SoecExportProps SeismicTableModel SeismicTableProps.
From Verif Require Import SeismicExportModel.
Import ListNotations.
Open Scope string_scope.
Open Scope list_scope.
Open Scope nat_scope.
Import SeismicTableModel(seismic_load, seismic_export, seismic_header, seismic_rows, last_matching, sinfo, skeys, serror).
Import SeismicTableProps(modes, heading_of, is_seismic_table).
Import SoecExportProps(within, changed, unchanged, one_saved, changed_kept, changed_new).

(** * Result files *)
Definition offers : list string := ["ssecondary"; "fsecondary"; "primary"].
(** What the exporter accepts: a file with an info text and a dataset primary. *)
Definition accepted (h : h5) (about : string) : Prop := info h = Some about /\ In "primary" (map fst (datasets h)).
(** What `quantas seismic` writes. *)
Definition result_of (slow fast prim : list (list R)) : h5 :=
  {| info := Some (SeismicTableModel.seismic_info "GPa");
     datasets := [("ssecondary", {| values := Mat slow; unit_of := "" |}); ("fsecondary", {| values := Mat fast; unit_of := "" |});
                  ("primary", {| values := Mat prim; unit_of := "" |})] |}.
Definition complete (m : list (list R)) : Prop := Forall (fun r => List.length r = 14) m.
(** The table of one wave: the heading names it, one line for each row. *)
Definition table_of (slow fast prim : list (list R)) (sel text : string) : Prop :=
  exists i line rows, In (sel, (i, line)) modes /\ nth_error [slow; fast; prim] i = Some rows /\ is_seismic_table text (heading_of line) rows.

(** ** Proofs *)
Lemma loading h about : accepted h about -> exists data e, seismic_load h [] = (data, e) /\ serror e = None /\ sinfo e = about /\ skeys e = offers /\
  (forall key d, In (key, d) data -> In (key, d) (datasets h)) /\ (forall key d, In (key, d) (datasets h) -> exists d', In (key, d') data).
Proof.
  intros (I & S0). unfold seismic_load. rewrite I. destruct (in_find _ _ S0) as (d0 & ->). eexists _, _. split; [reflexivity|]. cbn [serror sinfo skeys].
  do 3 (split; [reflexivity|]). split.
  - intros key d H. apply SoecExportProps.fill_in in H as [H|[]]. exact (Permutation_in _ (by_name_perm (datasets h)) H).
  - intros key d H. apply (in_map fst) in H. cbn [fst] in H.
    assert (K : In key (map fst (fold_left (fun l kd => dict_set (fst kd) (snd kd) l) (by_name (datasets h)) []))).
    { apply SoecExportProps.fill_keys. left. exact (Permutation_in _ (Permutation_map fst (Permutation_sym (by_name_perm (datasets h)))) H). }
    apply in_map_iff in K as ((key' & d') & E & K). cbn [fst] in E. subst key'. eauto.
Qed.
Lemma last_matching_in sel data d : last_matching sel data = Some d -> exists key, In (key, d) data /\ within sel key.
Proof.
  unfold last_matching. assert (G : forall l r, fold_left (fun r kd => if contains sel (fst kd) then Some (snd kd) else r) l r = Some d -> r = Some d \/ exists key, In (key, d) l /\ within sel key).
  { induction l as [|(k, a) l IH]; intros r H; [now left|]. cbn [fold_left fst snd] in H. apply IH in H as [H|(key & A & B)]; [|right; exists key; split; [now right|exact B]].
    destruct (contains sel k) eqn:C; [|now left]. injection H as <-. right. exists k. split; [now left|]. now apply SoecExportProps.contains_in. }
  intros H. destruct (G data None H) as [X|X]; [discriminate X|exact X].
Qed.
Lemma last_matching_out sel data : last_matching sel data = None <-> forall key d, In (key, d) data -> ~ within sel key.
Proof.
  unfold last_matching. assert (G : forall l r, fold_left (fun r kd => if contains sel (fst kd) then Some (snd kd) else r) l r = None <-> r = None /\ forall key (d : dataset), In (key, d) l -> ~ within sel key).
  { induction l as [|(k, a) l IH]; intros r; cbn [fold_left fst snd]; [split; [intros ->; split; [reflexivity|intros ? ? []]|intros (-> & _); reflexivity]|]. rewrite IH. destruct (contains sel k) eqn:C.
    - split; [intros (X & _); discriminate X|]. intros (_ & X). exfalso. apply (X k a); [now left|]. now apply SoecExportProps.contains_in.
    - apply SoecExportProps.contains_out in C. split; intros (A & B); (split; [exact A|]).
      + intros key d [E|I]; [injection E as <- <-; exact C|exact (B key d I)].
      + intros key d I. exact (B key d (or_intror I)). }
  rewrite G. tauto.
Qed.

(** ** Whatever is typed *)
Section Any.
Variable complaint : string -> list string -> string.
Variable data : list (string * dataset).
Variable choices : list string.
Variable f about : string.
Variable tables : string -> string -> Prop.
Hypothesis TB : forall sel kept header d m, In sel choices -> seismic_header about sel = Some header -> chosen data sel kept = Some d -> values d = Mat m ->
  tables sel (fst (put (header +++ nl +++ nl) (seismic_rows m))).
Notation base := (CliModel.root f).
Notation talk := (dialogue complaint data choices base about).
Definition held (kept : option dataset) : Prop := forall d, kept = Some d -> exists key, In (key, d) data.
Lemma still_held sel kept : held kept -> held (chosen data sel kept).
Proof. intros H d. unfold chosen. destruct (last_matching sel data) as [d'|] eqn:L; [|apply H]. intros [= <-]. apply last_matching_in in L as (key & I & _). eauto. Qed.
(** How writing a table fails. *)
Definition fails (local : option dataset) (sel e : string) : Prop :=
  (seismic_header about sel = None /\ e = "IndexError") \/ (local = None /\ e = "UnboundLocalError") \/
  exists d, local = Some d /\ ((exists v, values d = Vec v) /\ e = "ValueError" \/ exists m, values d = Mat m /\ snd (seismic_rows m) = Raised e).
Definition where_ (pre : list string) (now : files) (at_ : stage) : Prop :=
  match at_ with
  | Choosing kept | Continuing kept => held kept
  | Overwriting local sel => (exists kept, held kept /\ local = chosen data sel kept) /\ In sel choices /\ now (offered f sel) <> CliModel.Absent /\ exists a junk, pre = a ++ sel :: junk /\ Forall unclear junk
  | Naming local sel => (exists kept, held kept /\ local = chosen data sel kept) /\ In sel choices /\ now (offered f sel) <> CliModel.Absent /\
      exists a junk n blanks, pre = a ++ sel :: junk ++ n :: blanks /\ Forall unclear junk /\ declines n /\ Forall (eq "") blanks
  end.
Definition ending_of (typed : list string) (r : CliModel.result unit) : Prop :=
  r = CliModel.Ok tt \/ r = CliModel.Raises "Abort" \/ r = CliModel.Raises "IsADirectoryError" \/
  exists sel kept e, In sel typed /\ In sel choices /\ held kept /\ fails (chosen data sel kept) sel e /\ r = CliModel.Raises e.
Notation fine typed now m := (exists r v, m = (r, v) /\ changed tables f typed now (CliModel.fs v) /\ ending_of typed r).
Lemma saves typed local sel file w (go : CliModel.M unit) : (exists kept, held kept /\ local = chosen data sel kept) -> In sel choices -> In sel typed ->
  (CliModel.fs w file <> CliModel.Dir -> placed f typed (CliModel.fs w) sel file) -> (forall v, fine typed (CliModel.fs v) (go v)) ->
  fine typed (CliModel.fs w) (CliModel.bind (save about local sel file) (fun _ => CliModel.bind (ask more_question) (fun _ => go)) w).
Proof.
  intros (kept & HK & ->) K I P G.
  assert (Stop : forall e v, CliModel.fs v = CliModel.fs w -> fails (chosen data sel kept) sel e -> fine typed (CliModel.fs w) (CliModel.Raises e, v)).
  { intros e v Fv Fa. exists (CliModel.Raises e), v. split; [reflexivity|]. split; [rewrite Fv; apply unchanged|]. right; right; right. exists sel, kept, e. auto 10. }
  unfold save. destruct (seismic_header about sel) as [header|] eqn:Hd; [|apply Stop; [reflexivity|]; left; auto].
  destruct (chosen data sel kept) as [d|] eqn:Ch; [|apply Stop; [reflexivity|]; right; left; auto].
  destruct (values d) as [v|m] eqn:Va; [apply Stop; [reflexivity|]; right; right; exists d; split; [reflexivity|]; left; eauto|].
  pose proof (TB sel kept header d m K Hd Ch Va) as T. unfold CliModel.bind, CliModel.write.
  set (text := put (header +++ nl +++ nl) (seismic_rows m)) in *. cbv zeta.
  assert (X : CliModel.fs w file <> CliModel.Dir ->
    fine typed (CliModel.fs w) (match (match snd text with Done => echo ("Data successfully exported to '" +++ file +++ "'") | Raised e => CliModel.raise e end)
       {| CliModel.fs := CliModel.update (CliModel.fs w) file (CliModel.File (fst text)); CliModel.screen := CliModel.screen w |} with
     | (CliModel.Ok _, v) => match ask more_question v with (CliModel.Ok _, v0) => go v0 | (CliModel.Raises e, v0) => (CliModel.Raises e, v0) end
     | (CliModel.Raises e, v) => (CliModel.Raises e, v) end)).
  { intros D. specialize (P D). destruct (snd text) as [|e] eqn:E.
    - set (w1 := {| CliModel.fs := _; CliModel.screen := _ |}). cbn -[w1]. set (w2 := {| CliModel.fs := _; CliModel.screen := _ |}).
      destruct (G w2) as (r & v & E1 & E2 & E3). exists r, v. split; [exact E1|]. split; [|exact E3]. exact (one_saved tables f typed _ sel file _ _ T P E2).
    - eexists _, _. split; [reflexivity|]. split; [exact (one_saved tables f typed _ sel file _ _ T P (unchanged tables f typed _))|].
      right; right; right. exists sel, kept, e. split; [exact I|]. split; [exact K|]. split; [exact HK|]. split; [|reflexivity]. right; right. exists d. split; [exact Ch|]. right. exists m. split; [exact Va|exact E]. }
  destruct (CliModel.fs w file) eqn:F; [apply X; discriminate|apply X; discriminate|].
  eexists _, _. split; [reflexivity|]. split; [apply unchanged|]. right; right; left. reflexivity.
Qed.
Lemma any_answer typed rest : forall pre at_ w, typed = pre ++ rest -> where_ pre (CliModel.fs w) at_ -> fine typed (CliModel.fs w) (talk at_ rest w).
Proof.
  induction rest as [|t rest IH]; intros pre at_ w E W.
  { exists (CliModel.Raises "Abort"), w. split; [now destruct at_|]. split; [apply unchanged|]. right; left. reflexivity. }
  assert (T : In t typed) by (rewrite E; apply in_or_app; right; now left).
  assert (E' : typed = (pre ++ [t]) ++ rest) by (rewrite <- app_assoc; exact E).
  assert (Ask : forall question at' v0, CliModel.fs v0 = CliModel.fs w -> where_ (pre ++ [t]) (CliModel.fs w) at' -> fine typed (CliModel.fs w) (CliModel.bind (ask question) (fun _ => talk at' rest) v0)).
  { intros q at' v0 F0 W'. change (fine typed (CliModel.fs w) (talk at' rest {| CliModel.fs := CliModel.fs v0; CliModel.screen := CliModel.screen v0 ++ [(CliModel.Question, q)] |})). rewrite F0.
    apply (IH (pre ++ [t]) at' {| CliModel.fs := CliModel.fs w; CliModel.screen := CliModel.screen v0 ++ [(CliModel.Question, q)] |} E' W'). }
  assert (Say : forall msg question at', where_ (pre ++ [t]) (CliModel.fs w) at' -> fine typed (CliModel.fs w) (CliModel.bind (echo msg) (fun _ => CliModel.bind (ask question) (fun _ => talk at' rest)) w)).
  { intros msg q at' W'. exact (Ask q at' {| CliModel.fs := CliModel.fs w; CliModel.screen := CliModel.screen w ++ [(CliModel.Plain, msg)] |} eq_refl W'). }
  assert (Go : forall local, held local -> forall v, fine typed (CliModel.fs v) (talk (Continuing local) rest v)) by (intros local Hl v; now apply (IH (pre ++ [t]) (Continuing local) v E')).
  assert (HC : forall sel local, (exists kept, held kept /\ local = chosen data sel kept) -> held local) by (intros sel local (kept & Hk & ->); now apply still_held).
  assert (PT : forall a sel junk, pre = a ++ sel :: junk -> In sel typed) by (intros a sel junk ->; rewrite E; apply in_or_app; left; apply in_or_app; right; now left).
  destruct at_ as [kept|local sel|local sel|local]; cbn [dialogue where_] in *.
  - destruct (String.eqb_spec t "") as [->|N]; [now apply Ask|]. destruct (mem t choices) eqn:Mt; [|now apply Say].
    apply mem_in in Mt. erewrite bind_ok; [|reflexivity]. cbv beta. change (default_name base t) with (offered f t).
    assert (O : CliModel.fs w (offered f t) <> CliModel.Absent -> fine typed (CliModel.fs w) (CliModel.bind (ask (overwrite_question (offered f t))) (fun _ => talk (Overwriting (chosen data t kept) t) rest) w)).
    { intros A. apply Ask; [reflexivity|]. cbn [where_]. split; [eauto|]. do 2 (split; [assumption|]). exists pre, []. split; [reflexivity|constructor]. }
    destruct (CliModel.fs w (offered f t)) eqn:F; [|apply O; discriminate|apply O; discriminate].
    apply saves; [eauto|exact Mt|exact T| |exact (Go _ (still_held _ _ W))]. intros _. left. split; [reflexivity|]. split; [exact F|exact T].
  - destruct W as (Ev & K & A & a & junk & Ep & U).
    destruct (confirm_cases t) as [(-> & Y)|[(-> & N)|(-> & J)]].
    + apply saves; [exact Ev|exact K|exact (PT _ _ _ Ep)| |exact (Go _ (HC _ _ Ev))]. change (default_name base sel) with (offered f sel). intros D. right; left. split; [reflexivity|]. split.
      * destruct (CliModel.fs w (offered f sel)); [contradiction|eauto|contradiction].
      * exists a, junk, t, rest. split; [rewrite E, Ep, <- app_assoc; reflexivity|auto].
    + apply Ask; [reflexivity|]. cbn [where_]. do 3 (split; [assumption|]). exists a, junk, t, []. split; [rewrite Ep, <- app_assoc; reflexivity|auto].
    + apply Say. cbn [where_]. do 3 (split; [assumption|]). exists a, (junk ++ [t]). split; [rewrite Ep, <- app_assoc; reflexivity|]. apply Forall_app. auto.
  - destruct W as (Ev & K & A & a & junk & n & blanks & Ep & U & Dn & B).
    destruct (String.eqb_spec t "") as [->|N].
    + apply Ask; [reflexivity|]. cbn [where_]. do 3 (split; [assumption|]). exists a, junk, n, (blanks ++ [""]). split; [|split; [exact U|split; [exact Dn|apply Forall_app; auto]]].
      rewrite Ep. rewrite <- app_assoc. cbn [app]. rewrite <- app_assoc. reflexivity.
    + apply saves; [exact Ev|exact K|exact (PT _ _ _ Ep)| |exact (Go _ (HC _ _ Ev))]. intros D. right; right. split; [exact A|]. split; [exact D|]. exists a, junk, n, blanks, rest. split; [|auto].
      rewrite E, Ep. rewrite <- app_assoc. cbn [app]. rewrite <- app_assoc. reflexivity.
  - destruct (confirm_cases t) as [(-> & Y)|[(-> & N)|(-> & J)]].
    + now apply Say.
    + exists (CliModel.Ok tt), w. split; [reflexivity|]. split; [apply unchanged|]. left. reflexivity.
    + now apply Say.
Qed.
End Any.

(** ** The expected answers *)
Section Session.
Variable complaint : string -> list string -> string.
Variable f about : string.
Variable data : list (string * dataset).
Variable choices : list string.
Variable content : string -> string.
Variable cs : list string.
Hypothesis CS : forall sel, In sel cs -> In sel choices /\ sel <> "" /\ seismic_export about data sel = Opened (content sel, Done).
Notation base := (CliModel.root f).
Notation talk := (dialogue complaint data choices base about).
Lemma save_shows kept sel file w : In sel cs -> CliModel.fs w file <> CliModel.Dir ->
  save about (chosen data sel kept) sel file w = (CliModel.Ok tt, {| CliModel.fs := CliModel.update (CliModel.fs w) file (CliModel.File (content sel)); CliModel.screen := CliModel.screen w ++ saved_as file |}).
Proof.
  intros I D. destruct (CS sel I) as (_ & _ & E). unfold seismic_export in E. unfold save, chosen. destruct (last_matching sel data) as [d|]; [|discriminate E].
  destruct (values d) as [v|m]; [discriminate E|]. destruct (seismic_header about sel) as [header|]; [|discriminate E]. apply (f_equal (fun x => match x with Opened t => t | _ => ("", Done) end)) in E. cbv beta iota in E. rewrite E. cbv zeta. cbn [fst snd].
  unfold CliModel.bind, CliModel.write. destruct (CliModel.fs w file) eqn:F; [reflexivity|reflexivity|contradiction].
Qed.
Lemma ask_shows q w : ask q w = (CliModel.Ok tt, {| CliModel.fs := CliModel.fs w; CliModel.screen := CliModel.screen w ++ question q |}).
Proof. reflexivity. Qed.
Lemma echo_shows m w : echo m w = (CliModel.Ok tt, {| CliModel.fs := CliModel.fs w; CliModel.screen := CliModel.screen w ++ message m |}).
Proof. reflexivity. Qed.
Lemma request_shows kept lines sel file w rest : request f (CliModel.fs w) lines sel file -> In sel cs ->
  exists local said lines', lines = sel :: lines' /\ answered f (CliModel.fs w) lines file said /\ talk (Choosing kept) (lines ++ rest) w = talk (Continuing local) rest
    {| CliModel.fs := CliModel.update (CliModel.fs w) file (CliModel.File (content sel)); CliModel.screen := CliModel.screen w ++ said ++ question more_question |}.
Proof.
  intros Q IC. destruct (CS sel IC) as (I & N & _). exists (chosen data sel kept).
  assert (FN : CliModel.fs w file <> CliModel.Dir) by (destruct Q as [sel Q|sel y old Q Y|sel n name Q Y Z D]; congruence).
  apply mem_in in I. apply String.eqb_neq in N.
  destruct Q as [sel Q|sel y old Q Y|sel n name Q Y Z D]; cbn [app dialogue]; rewrite N, I; change (default_name base sel) with (offered f sel); rewrite (bind_ok _ _ _ _ _ (look_shows _ _)); cbv beta.
  - exists (saved_as (offered f sel)), []. split; [reflexivity|]. split; [now apply free|]. rewrite Q; cbv beta; rewrite (bind_ok _ _ _ _ _ (save_shows kept sel _ w IC FN)), (bind_ok _ _ _ _ _ (ask_shows _ _)). cbn [CliModel.fs CliModel.screen]. now rewrite <- app_assoc.
  - eexists _, [y]. split; [reflexivity|]. split; [now apply (again f _ sel y old)|]. rewrite Q, (bind_ok _ _ _ _ _ (ask_shows _ _)), (yes_answer y Y). erewrite bind_ok; [|apply save_shows; [exact IC|exact FN]]. rewrite (bind_ok _ _ _ _ _ (ask_shows _ _)).
    cbn [CliModel.fs CliModel.screen]. unfold taken. now rewrite <- !app_assoc.
  - eexists _, [n; name]. split; [reflexivity|]. split; [now apply (other f _ sel n name)|]. apply String.eqb_neq in Z.
    destruct (CliModel.fs w (offered f sel)) eqn:F; [contradiction| |];
      rewrite (bind_ok _ _ _ _ _ (ask_shows _ _)), (no_answer n Y), (bind_ok _ _ _ _ _ (ask_shows _ _)), Z; (erewrite bind_ok; [|apply save_shows; [exact IC|exact FN]]); rewrite (bind_ok _ _ _ _ _ (ask_shows _ _));
      cbn [CliModel.fs CliModel.screen]; unfold taken; now rewrite <- !app_assoc.
Qed.
Lemma session_shows now lines later : session content cs f now lines later ->
  forall kept w, CliModel.fs w = now -> exists said, conversation content f now lines said /\ talk (Choosing kept) lines w = (CliModel.Ok tt, {| CliModel.fs := later; CliModel.screen := CliModel.screen w ++ said |}).
Proof.
  intros H. induction H as [now lines sel file n I Q N|now lines sel file y more later I Q Y _ IH]; intros kept w <-.
  - destruct (request_shows kept lines sel file w [n] Q I) as (local & said & lines' & L & A & ->). exists (said ++ question more_question). split; [exact (closing _ f _ _ _ _ n A N)|].
    cbn [dialogue]. now rewrite (no_answer n N).
  - destruct (request_shows kept lines sel file w (y :: more) Q I) as (local & said & lines' & -> & A & ->). cbn [dialogue]. rewrite (yes_answer y Y), (bind_ok _ _ _ _ _ (echo_shows _ _)), (bind_ok _ _ _ _ _ (ask_shows _ _)).
    cbn [CliModel.fs CliModel.screen]. edestruct (IH local) as (s2 & K2 & ->); [reflexivity|]. eexists. split; [exact (continuing _ f _ _ _ _ _ y _ _ A Y K2)|]. cbn [CliModel.screen]. now rewrite <- !app_assoc.
Qed.
End Session.

(** * The command *)
Section Files.
Variable decode : string -> option h5.
Variable complaint : string -> list string -> string.
Variables (f : string) (w : CliModel.world).
Notation command := (export_main decode complaint f).
Lemma runs bytes h data e typed : CliModel.fs w f = CliModel.File bytes -> decode bytes = Some h -> seismic_load h [] = (data, e) -> serror e = None ->
  command typed w = match dialogue complaint data (skeys e) (CliModel.root f) (sinfo e) (Choosing None) typed {| CliModel.fs := CliModel.fs w; CliModel.screen := CliModel.screen w ++ greeting (sinfo e) |} with
    | (CliModel.Ok _, v) => (CliModel.Ok tt, {| CliModel.fs := CliModel.fs v; CliModel.screen := CliModel.screen v ++ farewell |})
    | (CliModel.Raises e, v) => (CliModel.Raises e, v)
    end.
Proof.
  intros F D L Er. unfold export_main, CliModel.bind at 1. cbn [CliModel.look]. rewrite F. unfold body, CliModel.bind at 1. unfold highlight at 1, CliModel.echo_highlight at 1, CliModel.bind at 1.
  cbn [negb CliModel.show CliModel.log CliModel.ret]. unfold CliModel.bind at 1. cbn [CliModel.look CliModel.fs]. rewrite F, D, L, Er. unfold CliModel.bind at 1.
  set (w0 := {| CliModel.fs := _; CliModel.screen := CliModel.screen w ++ greeting (sinfo e) |}).
  replace (run complaint data (skeys e) (CliModel.root f) (sinfo e) typed {| CliModel.fs := CliModel.fs w; CliModel.screen := CliModel.screen w ++ [(CliModel.Highlight, CitationsModel.quantas_title)] |})
    with (dialogue complaint data (skeys e) (CliModel.root f) (sinfo e) (Choosing None) typed w0).
  - destruct (dialogue _ _ _ _ _ _ _ w0) as [[[]|e'] v]; [|reflexivity]. cbn. do 2 f_equal. unfold farewell. cbn [map]. now rewrite <- !app_assoc.
  - unfold run, echo, CliModel.echo, ask, CliModel.bind, CliModel.show, CliModel.log, CliModel.ret. cbn [negb CliModel.fs CliModel.screen]. unfold w0, greeting, message, question, choice_question. now rewrite <- !app_assoc.
Qed.

(** ** A session writes, for each request, the table of the wave asked for with the
       numbers stored; the screen shows the whole conversation. *)
Lemma own_table slow fast prim sel i line rows : In (sel, (i, line)) modes -> nth_error [slow; fast; prim] i = Some rows -> complete rows ->
  exists text, seismic_export (SeismicTableModel.seismic_info "GPa") (fst (seismic_load (result_of slow fast prim) [])) sel = Opened (text, Done) /\ is_seismic_table text (heading_of line) rows.
Proof. intros M N C. destruct (SeismicTableProps.C78_table [] slow fast prim sel i line rows (Forall_nil _) M N C) as (_ & text & E & T). exists text. split; [exact E|exact T]. Qed.
Lemma own_modes sel : In sel offers -> exists i line, In (sel, (i, line)) modes /\ i < 3.
Proof. intros I. cbn [offers In] in I. decompose [or False] I; subst sel; [exists 0|exists 1|exists 2]; eexists; (split; [cbn; tauto|lia]). Qed.
Theorem C107_session bytes slow fast prim : CliModel.fs w f = CliModel.File bytes -> decode bytes = Some (result_of slow fast prim) ->
  complete slow -> complete fast -> complete prim ->
  exists texts, (forall sel i line rows, In (sel, (i, line)) modes -> nth_error [slow; fast; prim] i = Some rows -> is_seismic_table (texts sel) (heading_of line) rows) /\
  forall typed later, session texts offers f (CliModel.fs w) typed later ->
  exists w' said, command typed w = (CliModel.Ok tt, w') /\ CliModel.fs w' = later /\ conversation texts f (CliModel.fs w) typed said /\
    CliModel.screen w' = CliModel.screen w ++ greeting (SeismicTableModel.seismic_info "GPa") ++ said ++ farewell.
Proof.
  intros F D C0 C1 C2. assert (CC : forall i rows, nth_error [slow; fast; prim] i = Some rows -> complete rows) by (intros [|[|[|i]]] rows N; cbn in N; [injection N as <-|injection N as <-|injection N as <-|destruct i; discriminate N]; assumption).
  set (data := fst (seismic_load (result_of slow fast prim) [])).
  set (texts := fun sel => match seismic_export (SeismicTableModel.seismic_info "GPa") data sel with Opened (t, _) => t | _ => "" end). exists texts. split.
  - intros sel i line rows M N. destruct (own_table slow fast prim sel i line rows M N (CC i rows N)) as (text & E & T). unfold texts, data. rewrite E. exact T.
  - intros typed later S0. rewrite (runs bytes (result_of slow fast prim) data (snd (seismic_load (result_of slow fast prim) [])) typed F D eq_refl eq_refl).
    change (sinfo (snd (seismic_load (result_of slow fast prim) []))) with (SeismicTableModel.seismic_info "GPa"). change (skeys (snd (seismic_load (result_of slow fast prim) []))) with offers.
    destruct (session_shows complaint f (SeismicTableModel.seismic_info "GPa") data offers texts offers) with (now := CliModel.fs w) (lines := typed) (later := later) (kept := @None dataset)
      (w := {| CliModel.fs := CliModel.fs w; CliModel.screen := CliModel.screen w ++ greeting (SeismicTableModel.seismic_info "GPa") |}) as (said & C & E).
    + intros sel I. split; [exact I|]. split; [intros ->; cbn in I; intuition discriminate|]. destruct (own_modes sel I) as (i & line & M & Hi).
      destruct (nth_error [slow; fast; prim] i) as [rows|] eqn:N; [|apply nth_error_None in N; cbn in N; lia].
      destruct (own_table slow fast prim sel i line rows M N (CC i rows N)) as (text & Ex & _). unfold texts. fold data in Ex. now rewrite Ex.
    + exact S0.
    + reflexivity.
    + rewrite E. cbn [CliModel.fs CliModel.screen]. eexists _, said. split; [reflexivity|]. cbn [CliModel.fs CliModel.screen]. split; [reflexivity|]. split; [exact C|]. now rewrite <- !app_assoc.
Qed.

(** ** Whatever is typed, with a result file of `quantas seismic`: the session ends, is
       interrupted by the end of the lines, or fails because a name is that of a
       directory. Only complete tables of the wave asked for are written, at the name
       offered if it is free or the user agrees, or at the name they typed. *)
Theorem C107_any_answers bytes slow fast prim typed : CliModel.fs w f = CliModel.File bytes -> decode bytes = Some (result_of slow fast prim) ->
  complete slow -> complete fast -> complete prim ->
  exists r v, command typed w = (r, v) /\ changed (table_of slow fast prim) f typed (CliModel.fs w) (CliModel.fs v) /\
  (r = CliModel.Ok tt \/ r = CliModel.Raises "Abort" \/ r = CliModel.Raises "IsADirectoryError").
Proof.
  intros F D C0 C1 C2. assert (CC : forall i rows, nth_error [slow; fast; prim] i = Some rows -> complete rows) by (intros [|[|[|i]]] rows N; cbn in N; [injection N as <-|injection N as <-|injection N as <-|destruct i; discriminate N]; assumption).
  set (data := fst (seismic_load (result_of slow fast prim) [])).
  assert (OT : forall sel kept, In sel offers -> exists header d m, seismic_header (SeismicTableModel.seismic_info "GPa") sel = Some header /\ chosen data sel kept = Some d /\ values d = Mat m /\
    snd (seismic_rows m) = Done /\ table_of slow fast prim sel (fst (put (header +++ nl +++ nl) (seismic_rows m)))).
  { intros sel kept I. destruct (own_modes sel I) as (i & line & M & Hi).
    destruct (nth_error [slow; fast; prim] i) as [rows|] eqn:N; [|apply nth_error_None in N; cbn in N; lia].
    destruct (own_table slow fast prim sel i line rows M N (CC i rows N)) as (text & Ex & T). fold data in Ex. unfold seismic_export in Ex. unfold chosen. destruct (last_matching sel data) as [d|]; [|discriminate Ex].
    destruct (values d) as [v|m] eqn:Va; [discriminate Ex|]. destruct (seismic_header _ sel) as [header|]; [|discriminate Ex]. apply (f_equal (fun x => match x with Opened t => t | _ => ("", Done) end)) in Ex. cbv beta iota in Ex. exists header, d, m. do 2 (split; [reflexivity|]). split; [exact Va|].
    split; [apply (f_equal snd) in Ex; exact Ex|]. rewrite Ex. exists i, line, rows. auto. }
  rewrite (runs bytes (result_of slow fast prim) data (snd (seismic_load (result_of slow fast prim) [])) typed F D eq_refl eq_refl).
  change (sinfo (snd (seismic_load (result_of slow fast prim) []))) with (SeismicTableModel.seismic_info "GPa"). change (skeys (snd (seismic_load (result_of slow fast prim) []))) with offers.
  set (w0 := {| CliModel.fs := _; CliModel.screen := CliModel.screen w ++ _ |}).
  destruct (any_answer complaint data offers f (SeismicTableModel.seismic_info "GPa") (table_of slow fast prim)) with (typed := typed) (rest := typed) (pre := @nil string) (at_ := Choosing None) (w := w0) as (r & v & E1 & E2 & E3).
  - intros sel kept header d m I Hd Ch Va. destruct (OT sel kept I) as (header' & d' & m' & A1 & A2 & A3 & _ & A5). congruence.
  - reflexivity.
  - intros d X. discriminate X.
  - rewrite E1. assert (EN : r = CliModel.Ok tt \/ r = CliModel.Raises "Abort" \/ r = CliModel.Raises "IsADirectoryError").
    { destruct E3 as [X|[X|[X|(sel & kept & ex & I1 & I2 & _ & Fa & ->)]]]; auto. exfalso. destruct (OT sel kept I2) as (header & d & m & A1 & A2 & A3 & A4 & _).
      destruct Fa as [(B & _)|[(B & _)|(d' & B & [((v' & B') & _)|(m' & B' & B'')])]]; [congruence|congruence|congruence|]. assert (m' = m) by congruence. subst m'. rewrite A4 in B''. discriminate B''. }
    destruct r as [[]|er]; (eexists _, _; split; [reflexivity|]; split; [exact E2|exact EN]).
Qed.

(** ** Whatever is typed, with any file which is accepted *)
Lemma join_short fs row : SeismicTableModel.join_fields fs row = None -> List.length row < List.length fs.
Proof.
  revert row. induction fs as [|(k, n) fs IH]; intros row; [discriminate|]. destruct row as [|x row]; [cbn; lia|].
  destruct fs as [|(k', n') fs]; [discriminate|]. cbn [SeismicTableModel.join_fields]. intros H.
  change (option_map (fun s => fmt_f k n x +++ " " +++ s) (SeismicTableModel.join_fields ((k', n') :: fs) row) = None) in H.
  destruct (SeismicTableModel.join_fields ((k', n') :: fs) row) eqn:J; [discriminate H|]. apply IH in J. cbn [List.length] in *. lia.
Qed.
Lemma rows_short m e : snd (seismic_rows m) = Raised e -> e = "IndexError" /\ exists row, In row m /\ List.length row < 14.
Proof.
  induction m as [|r m IH]; [discriminate|]. cbn [seismic_rows]. destruct (SeismicTableModel.join_fields SeismicTableModel.formats r) as [s|] eqn:J.
  - unfold put. cbn [snd]. intros H. destruct (IH H) as (E & row & I & L). split; [exact E|]. exists row. split; [now right|exact L].
  - cbn [snd]. intros [= <-]. split; [reflexivity|]. exists r. split; [now left|]. exact (join_short _ _ J).
Qed.
Lemma set_nth_none i x l : SeismicTableModel.set_nth i x l = None -> List.length l <= i.
Proof.
  revert i. induction l as [|a l IH]; intros i H; cbn [List.length]; [lia|]. destruct i as [|i]; [discriminate H|]. cbn [SeismicTableModel.set_nth] in H.
  destruct (SeismicTableModel.set_nth i x l) eqn:E; [discriminate H|]. apply IH in E. lia.
Qed.
Lemma header_short about sel : seismic_header about sel = None -> List.length (SeismicTableModel.splitlines about) < 10.
Proof.
  unfold seismic_header. destruct (SeismicTableModel.set_nth 9 _ _) eqn:E; [discriminate|]. intros _. apply set_nth_none in E. lia.
Qed.
(** Besides the endings above, a file made otherwise may fail: its info text is too
    short, a row of a matrix has fewer than fourteen numbers, nothing in it is named
    after the wave asked for first, or a dataset is not a matrix. *)
Theorem C107_other_files bytes h about typed : CliModel.fs w f = CliModel.File bytes -> decode bytes = Some h -> accepted h about ->
  exists r v, command typed w = (r, v) /\ changed (fun sel _ => In sel offers) f typed (CliModel.fs w) (CliModel.fs v) /\
  (r = CliModel.Ok tt \/ r = CliModel.Raises "Abort" \/ r = CliModel.Raises "IsADirectoryError" \/
   (r = CliModel.Raises "IndexError" /\ (List.length (SeismicTableModel.splitlines about) < 10 \/ exists key d m row, In (key, d) (datasets h) /\ values d = Mat m /\ In row m /\ List.length row < 14)) \/
   (r = CliModel.Raises "UnboundLocalError" /\ exists sel, In sel typed /\ In sel offers /\ forall key d, In (key, d) (datasets h) -> ~ within sel key) \/
   (r = CliModel.Raises "ValueError" /\ exists key d v, In (key, d) (datasets h) /\ values d = Vec v)).
Proof.
  intros F D A. destruct (loading h about A) as (data & e & L & Er & Ab & K & D1 & D2). rewrite (runs bytes h data e typed F D L Er), Ab, K.
  set (w0 := {| CliModel.fs := _; CliModel.screen := CliModel.screen w ++ _ |}).
  destruct (any_answer complaint data offers f about (fun sel _ => In sel offers)) with (typed := typed) (rest := typed) (pre := @nil string) (at_ := Choosing None) (w := w0) as (r & v & E1 & E2 & E3).
  - intros sel kept header d m I _ _ _. exact I.
  - reflexivity.
  - intros d X. discriminate X.
  - rewrite E1. assert (EN : r = CliModel.Ok tt \/ r = CliModel.Raises "Abort" \/ r = CliModel.Raises "IsADirectoryError" \/
      (r = CliModel.Raises "IndexError" /\ (List.length (SeismicTableModel.splitlines about) < 10 \/ exists key d m row, In (key, d) (datasets h) /\ values d = Mat m /\ In row m /\ List.length row < 14)) \/
      (r = CliModel.Raises "UnboundLocalError" /\ exists sel, In sel typed /\ In sel offers /\ forall key d, In (key, d) (datasets h) -> ~ within sel key) \/
      (r = CliModel.Raises "ValueError" /\ exists key d v, In (key, d) (datasets h) /\ values d = Vec v)).
    { destruct E3 as [X|[X|[X|(sel & kept & ex & I1 & I2 & HK & Fa & ->)]]]; auto. do 3 right.
      pose proof (still_held data sel kept HK) as HC.
      destruct Fa as [(B & ->)|[(B & ->)|(d & B & Fa)]].
      - left. split; [reflexivity|]. left. exact (header_short _ _ B).
      - right; left. split; [reflexivity|]. exists sel. do 2 (split; [assumption|]). intros key d I W. destruct (D2 key d I) as (d' & I'). unfold chosen in B.
        destruct (last_matching sel data) eqn:LM; [discriminate B|]. exact (proj1 (last_matching_out sel data) LM key d' I' W).
      - destruct (HC d B) as (key & I). apply D1 in I. destruct Fa as [((v' & Va) & ->)|(m & Va & Ro)].
        + right; right. split; [reflexivity|]. eauto.
        + left. apply rows_short in Ro as (-> & row & J & Sh). split; [reflexivity|]. right. exists key, d, m, row. auto. }
    destruct r as [[]|er]; (eexists _, _; split; [reflexivity|]; split; [exact E2|exact EN]).
Qed.

(** ** Files which cannot be exported: a message or an exception, and nothing changes *)
Definition tells (v : CliModel.world) (message : string) : Prop := In (CliModel.Error, message) (CliModel.screen v).
Lemma opens bytes typed : CliModel.fs w f = CliModel.File bytes -> exists v0, CliModel.fs v0 = CliModel.fs w /\ (decode bytes = None -> command typed w = (CliModel.Raises "OSError", v0)) /\
  forall h data e m, decode bytes = Some h -> seismic_load h [] = (data, e) -> serror e = Some m -> command typed w = failure m v0.
Proof.
  intros F. eexists. split; [|split].
  2: intros D. 3: intros h data e m D L E.
  2,3: unfold export_main, CliModel.bind at 1; cbn [CliModel.look]; rewrite F; unfold body, CliModel.bind at 1; unfold highlight at 1, CliModel.echo_highlight at 1, CliModel.bind at 1;
    cbn [negb CliModel.show CliModel.log CliModel.ret]; unfold CliModel.bind at 1; cbn [CliModel.look CliModel.fs]; rewrite F, D; try rewrite L, E; reflexivity.
  reflexivity.
Qed.
Theorem C107_refused typed :
  (CliModel.fs w f = CliModel.Absent -> command typed w = (CliModel.Raises "UsageError", w)) /\
  (CliModel.fs w f = CliModel.Dir -> exists v, command typed w = (CliModel.Ok tt, v) /\ CliModel.fs v = CliModel.fs w /\ tells v ("'" +++ f +++ "' is not a file")) /\
  (forall bytes, CliModel.fs w f = CliModel.File bytes ->
    (decode bytes = None -> exists v, command typed w = (CliModel.Raises "OSError", v) /\ CliModel.fs v = CliModel.fs w) /\
    (forall h, decode bytes = Some h ->
      (info h = None -> exists v, command typed w = (CliModel.Ok tt, v) /\ CliModel.fs v = CliModel.fs w /\ tells v "This does not appear to be a Quantas output file") /\
      (info h <> None -> ~ In "primary" (map fst (datasets h)) ->
        exists v, command typed w = (CliModel.Ok tt, v) /\ CliModel.fs v = CliModel.fs w /\ tells v "This does not appear to be a Quantas seismic output file"))).
Proof.
  unfold tells. split; [|split].
  - intros F. unfold export_main, CliModel.bind at 1. cbn [CliModel.look]. now rewrite F.
  - intros F. unfold export_main, CliModel.bind at 1. cbn [CliModel.look]. rewrite F. unfold body, CliModel.bind at 1. unfold highlight, CliModel.echo_highlight, CliModel.bind at 1.
    cbn [negb CliModel.show CliModel.log CliModel.ret]. unfold CliModel.bind at 1. cbn [CliModel.look CliModel.fs]. rewrite F. eexists. split; [reflexivity|]. split; [reflexivity|].
    cbn [CliModel.screen]. apply in_or_app. right. now left.
  - intros bytes F. destruct (opens bytes typed F) as (v0 & Fv & E1 & E2). split.
    + intros D. exists v0. auto.
    + intros h D. split.
      * intros A. erewrite (E2 h); [|exact D|unfold seismic_load; rewrite A; reflexivity|reflexivity]. eexists. split; [reflexivity|]. split; [exact Fv|]. cbn [CliModel.screen]. apply in_or_app. right. now left.
      * intros A B. destruct (info h) as [i|] eqn:AB; [|contradiction]. erewrite (E2 h); [|exact D|unfold seismic_load; rewrite AB, (find_none _ _ B); reflexivity|reflexivity].
        eexists. split; [reflexivity|]. split; [exact Fv|]. cbn [CliModel.screen]. apply in_or_app. right. now left.
Qed.
(** Whatever the file and whatever is typed: a file which was there is only replaced
    if the user agreed, or if they typed its name; a file which was not there is the
    one offered for a table they chose, or has a name they typed. *)
Theorem C107_kept typed q : CliModel.fs (snd (command typed w)) q <> CliModel.fs w q ->
  (CliModel.fs w q <> CliModel.Absent -> (exists sel, q = offered f sel /\ agreed typed sel) \/ exists sel, renamed typed sel q) /\
  ((exists sel, In sel offers /\ q = offered f sel /\ In sel typed) \/ exists sel, renamed typed sel q) /\
  exists text, CliModel.fs (snd (command typed w)) q = CliModel.File text.
Proof.
  intros N. destruct (C107_refused typed) as (R1 & R2 & R3).
  assert (Z : exists h, exists bytes, CliModel.fs w f = CliModel.File bytes /\ decode bytes = Some h /\ exists about, accepted h about).
  { destruct (CliModel.fs w f) as [|bytes|] eqn:F.
    - rewrite (R1 eq_refl) in N. contradiction.
    - destruct (R3 bytes eq_refl) as (Q1 & Q2). destruct (decode bytes) as [h|] eqn:D; [|destruct (Q1 eq_refl) as (v & E & Fv); rewrite E in N; cbn [snd] in N; rewrite Fv in N; contradiction].
      exists h, bytes. do 2 (split; [auto|]). destruct (Q2 h eq_refl) as (S1 & S2). destruct (info h) as [about|] eqn:I; [|destruct (S1 eq_refl) as (v & E & Fv & _); rewrite E in N; cbn [snd] in N; rewrite Fv in N; contradiction].
      exists about. split; [exact I|]. destruct (in_dec string_dec "primary" (map fst (datasets h))) as [Y|Y]; [exact Y|].
      destruct (S2 ltac:(discriminate) Y) as (v & E & Fv & _). rewrite E in N. cbn [snd] in N. rewrite Fv in N. contradiction.
    - destruct (R2 eq_refl) as (v & E & Fv & _). rewrite E in N. cbn [snd] in N. rewrite Fv in N. contradiction. }
  destruct Z as (h & bytes & F & D & about & A). destruct (C107_other_files bytes h about typed F D A) as (r & v & E & C & _). rewrite E in *. cbn [snd] in *.
  split; [intros X; exact (changed_kept _ _ _ _ _ C q X N)|]. destruct (changed_new _ _ _ _ _ C q N) as ((sel & text & _ & T) & B). split; [|eauto].
  clear - C N. induction C as [now|now sel file text later T P C IH]; [contradiction|].
  assert (dec : forall m n : CliModel.node, {m = n} + {m <> n}) by (decide equality; apply string_dec).
  destruct (dec (later q) (CliModel.update now file (CliModel.File text) q)) as [E|X]; [|exact (IH X)].
  unfold CliModel.update in E. destruct (String.eqb_spec q file) as [->|]; [|contradiction].
  destruct P as [(-> & _ & P)|[(-> & _ & (a & junk & y & b & -> & _))|(_ & _ & P)]]; [left; eauto| |right; eauto].
  left. exists sel. split; [exact T|]. split; [reflexivity|]. apply in_or_app. right. now left.
Qed.

(** ** Not every table shows the wave it is named after: without a dataset of that
       name, the numbers of the table before are written again under the new heading. *)
Theorem C107_stale_refuted bytes prim i line : CliModel.fs w f = CliModel.File bytes ->
  decode bytes = Some {| info := Some (SeismicTableModel.seismic_info "GPa"); datasets := [("primary", {| values := Mat prim; unit_of := "" |})] |} -> complete prim ->
  forall sel, In (sel, (i, line)) modes -> sel <> "primary" -> CliModel.fs w (offered f "primary") = CliModel.Absent -> CliModel.fs w (offered f sel) = CliModel.Absent ->
  (exists w1, command [sel] w = (CliModel.Raises "UnboundLocalError", w1) /\ CliModel.fs w1 = CliModel.fs w) /\
  exists w2 text, command ["primary"; "y"; sel; "n"] w = (CliModel.Ok tt, w2) /\ CliModel.fs w2 (offered f sel) = CliModel.File text /\ is_seismic_table text (heading_of line) prim.
Proof.
  intros F D C sel M N A1 A2. set (h := {| info := _; datasets := _ |}) in D. set (data := fst (seismic_load h [])). set (about := SeismicTableModel.seismic_info "GPa").
  assert (Rn : forall typed, command typed w = match dialogue complaint data offers (CliModel.root f) about (Choosing None) typed {| CliModel.fs := CliModel.fs w; CliModel.screen := CliModel.screen w ++ greeting about |} with
    | (CliModel.Ok _, v) => (CliModel.Ok tt, {| CliModel.fs := CliModel.fs v; CliModel.screen := CliModel.screen v ++ farewell |})
    | (CliModel.Raises e, v) => (CliModel.Raises e, v) end) by (intros typed; exact (runs bytes h data (snd (seismic_load h [])) typed F D eq_refl eq_refl)).
  assert (Ms : mem sel offers = true /\ String.eqb sel "" = false /\ last_matching sel data = None).
  { cbn [modes In] in M. destruct M as [M|[M|[M|[]]]]; injection M as <- _ _; [repeat split|repeat split|contradiction]. }
  destruct Ms as (M1 & M2 & M3). rewrite !Rn. set (w0 := {| CliModel.fs := CliModel.fs w; CliModel.screen := _ |}).
  pose proof (SeismicTableProps.header_of sel i line M) as Hs.
  assert (Hp : seismic_header about "primary" = Some (concat_map (fun line => line +++ nl) (heading_of "  - primary data (primary)"))) by (apply (SeismicTableProps.header_of "primary" 2); cbn; tauto).
  fold about in Hs. split.
  - cbn [dialogue]. rewrite M1, M2. change (default_name (CliModel.root f) sel) with (offered f sel). rewrite (bind_ok _ _ _ _ _ (look_shows _ w0)). change (CliModel.fs w0) with (CliModel.fs w). rewrite A2.
    unfold chosen. rewrite M3. unfold save. rewrite Hs. eexists. split; reflexivity.
  - destruct (SeismicTableProps.rows_written prim C) as (body & E & NB & LB & V).
    assert (Df : offered f "primary" <> offered f sel).
    { intros X. unfold offered in X. assert (Y : forall a b c : string, a +++ b = a +++ c -> b = c) by (induction a; intros b c Q; [exact Q|injection Q as Q; auto]). apply Y in X. cbn [modes In] in M.
      destruct M as [M|[M|[M|[]]]]; injection M as <- _ _; [discriminate X|discriminate X|contradiction]. }
    assert (Sv : forall s header file w1, seismic_header about s = Some header -> CliModel.fs w1 file <> CliModel.Dir ->
      save about (Some {| values := Mat prim; unit_of := "" |}) s file w1 = (CliModel.Ok tt, {| CliModel.fs := CliModel.update (CliModel.fs w1) file (CliModel.File ((header +++ nl +++ nl) +++ concat_map (fun l => l +++ nl) body)); CliModel.screen := CliModel.screen w1 ++ saved_as file |})).
    { intros s header file w1 Hh Dd. unfold save. rewrite Hh. cbn [values]. rewrite E. cbv zeta. unfold put. cbn [fst snd]. unfold CliModel.bind, CliModel.write. destruct (CliModel.fs w1 file) eqn:Fx; [reflexivity|reflexivity|contradiction]. }
    cbn [dialogue]. change (String.eqb "primary" "") with false. change (mem "primary" offers) with true. cbv iota. change (default_name (CliModel.root f) "primary") with (offered f "primary").
    rewrite (bind_ok _ _ _ _ _ (look_shows _ w0)). change (CliModel.fs w0) with (CliModel.fs w). rewrite A1.
    change (chosen data "primary" None) with (Some {| values := Mat prim; unit_of := "" |}).
    erewrite bind_ok; [|apply (Sv "primary" _ _ _ Hp); change (CliModel.fs w0) with (CliModel.fs w); rewrite A1; discriminate].
    rewrite (bind_ok _ _ _ _ _ (ask_shows _ _)). change (EosFitModel.confirm_answer false "y") with (Some true). cbv iota. rewrite (bind_ok _ _ _ _ _ (echo_shows _ _)), (bind_ok _ _ _ _ _ (ask_shows _ _)).
    rewrite M1, M2. change (default_name (CliModel.root f) sel) with (offered f sel). rewrite (bind_ok _ _ _ _ _ (look_shows _ _)). cbn [CliModel.fs CliModel.screen]. change (CliModel.fs w0) with (CliModel.fs w).
    match goal with |- context [match ?m with CliModel.Absent => _ | CliModel.File _ => _ | CliModel.Dir => _ end] => assert (A3 : m = CliModel.Absent) end.
    { unfold CliModel.update. destruct (String.eqb_spec (offered f sel) (offered f "primary")) as [X|_]; [congruence|exact A2]. }
    rewrite A3. unfold chosen at 1. rewrite M3. erewrite bind_ok; [|apply (Sv sel _ _ _ Hs); cbn [CliModel.fs]; rewrite A3; discriminate].
    rewrite (bind_ok _ _ _ _ _ (ask_shows _ _)). change (EosFitModel.confirm_answer false "n") with (Some false). cbn [CliModel.ret CliModel.fs CliModel.screen].
    eexists _, _. split; [reflexivity|]. cbn [CliModel.fs]. split; [unfold CliModel.update at 1; rewrite String.eqb_refl; reflexivity|].
    exists body. split; [|now split].
    assert (NH : Forall no_newline (heading_of line)).
    { clear - M. cbn [modes In] in M. decompose [or False] M; match goal with E : (_, _) = _ |- _ => injection E as <- <- <- end;
        apply Forall_forall; intros x X; cbn [heading_of In] in X; decompose [or False] X; subst x; reflexivity. }
    rewrite append_assoc, SeismicTableProps.concat_lines by exact NH. f_equal. rewrite append_assoc. unfold nl at 1 2. cbn [String.append].
    match goal with |- lines (String newline (String newline ?k)) = _ => change (lines (String newline (String newline k))) with ("" :: "" :: lines k) end. cbn [app]. f_equal. f_equal.
    rewrite <- (append_nil (concat_map _ body)), SeismicTableProps.concat_lines by exact NB. reflexivity.
Qed.
End Files.

Print Assumptions C107_session.
Print Assumptions C107_any_answers.
Print Assumptions C107_other_files.
Print Assumptions C107_refused.
Print Assumptions C107_kept.
Print Assumptions C107_stale_refuted.
