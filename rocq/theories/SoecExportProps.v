(** C99: `quantas export soec FILE`, from the result file and the lines typed to the tables. *)
From Coq Require Import Reals String Ascii List Bool Arith ZArith Lia Permutation.
From Verif Require CliModel CliProps CitationsModel EosFitModel.
From Verif Require Import Py DecimalModel DecimalProofs FormatModel FormatProofs YamlSpec TableModel TableProofs TableProps StoreModel SoecTableModel SoecTableProofs SoecTableProps H5Props.
From Verif Require Import ExportCommandProps ExportCommandProps2 ExportScreenProps SoecExportModel.
Import ListNotations.
Open Scope string_scope.
Open Scope list_scope.
Open Scope nat_scope.

(** * Whatever is typed *)
Definition within (part whole : string) : Prop := exists a b, whole = a +++ part +++ b.
(** The arrays of polar cuts in a file. *)
Definition cut (h : h5) (key : string) (d : dataset) : Prop := In (key, d) (datasets h) /\ within "polar_" key.
Definition accepted (h : h5) (info_line : string) : Prop := info h = Some info_line /\ In "stiffness" (map fst (datasets h)).
(** What the exporter offers. *)
Definition is_offered (h : h5) (sel : string) : Prop := In sel ["E"; "LC"; "G"; "Nu"] \/ sel = "waves" /\ exists key d, cut h key d /\ within "waves" key.
(** A complete table entitled as asked. *)
Definition entitled (text sel : string) : Prop :=
  exists title rest, find sel titles = Some title /\ text = "*- This file was created using Quantas -*" +++ nl +++ nl +++ title +++ nl +++ rest.
Inductive changed (tables : string -> string -> Prop) (f : string) (typed : list string) : files -> files -> Prop :=
| unchanged now : changed tables f typed now now
| one_saved now sel file text later : tables sel text -> placed f typed now sel file ->
    changed tables f typed (CliModel.update now file (CliModel.File text)) later -> changed tables f typed now later.

(** ** Proofs *)
Lemma prefix_in part whole : String.prefix part whole = true <-> exists b, whole = part +++ b.
Proof.
  revert whole. induction part as [|c part IH]; intros whole; [split; [intros _; exists whole; reflexivity|destruct whole; reflexivity]|].
  destruct whole as [|c' whole]; [split; [discriminate|intros (b & E); discriminate E]|]. cbn [String.prefix]. destruct (Ascii.ascii_dec c c') as [->|N].
  - rewrite IH. split; intros (b & E); exists b; [rewrite E; reflexivity|injection E as ->; reflexivity].
  - split; [discriminate|]. intros (b & E). injection E as E _. congruence.
Qed.
Lemma contains_in part whole : contains part whole = true <-> within part whole.
Proof.
  induction whole as [|c whole IH]; cbn [contains].
  - destruct (String.prefix part "") eqn:P.
    + split; [intros _|reflexivity]. apply prefix_in in P as (b & E). exists "", b. exact E.
    + split; [discriminate|]. intros (a & b & E). destruct a; [|discriminate E]. enough (String.prefix part "" = true) by congruence. apply prefix_in. exists b. exact E.
  - destruct (String.prefix part (String c whole)) eqn:P.
    + split; [intros _|reflexivity]. apply prefix_in in P as (b & E). exists "", b. exact E.
    + rewrite IH. split.
      * intros (a & b & ->). exists (String c a), b. reflexivity.
      * intros (a & b & E). destruct a as [|c' a]; [exfalso; enough (String.prefix part (String c whole) = true) by congruence; apply prefix_in; exists b; exact E|].
        injection E as <- ->. exists a, b. reflexivity.
Qed.
Lemma contains_out part whole : contains part whole = false <-> ~ within part whole.
Proof. rewrite <- contains_in. destruct (contains part whole); split; congruence. Qed.
Lemma dict_set_in {A} k (a : A) l k' a' : In (k', a') (dict_set k a l) -> (k', a') = (k, a) \/ In (k', a') l.
Proof.
  induction l as [|(q, b) l IH]; cbn [dict_set In]; [intros [E|[]]; now left|]. destruct (String.eqb_spec k q) as [->|N]; cbn [In].
  - intros [E|E]; [now left|right; now right].
  - intros [E|E]; [right; now left|]. destruct (IH E); [now left|right; now right].
Qed.
Lemma dict_set_keys {A} k (a : A) l k' : In k' (map fst (dict_set k a l)) <-> k' = k \/ In k' (map fst l).
Proof.
  induction l as [|(q, b) l IH]; cbn [dict_set map In fst]; [intuition congruence|]. destruct (String.eqb_spec k q) as [->|N]; cbn [map In fst]; [intuition congruence|]. rewrite IH. intuition congruence.
Qed.
Lemma fill_in {A} (l : list (string * A)) d k a : In (k, a) (fold_left (fun l kd => dict_set (fst kd) (snd kd) l) l d) -> In (k, a) l \/ In (k, a) d.
Proof.
  revert d. induction l as [|(q, b) l IH]; intros d; cbn [fold_left]; [now right|]. intros H. apply IH in H as [H|H]; [left; now right|]. cbn [fst snd] in H. apply dict_set_in in H as [E|H]; [left; left; now symmetry|now right].
Qed.
Lemma fill_keys {A} (l : list (string * A)) d k : In k (map fst (fold_left (fun l kd => dict_set (fst kd) (snd kd) l) l d)) <-> In k (map fst l) \/ In k (map fst d).
Proof.
  revert d. induction l as [|(q, b) l IH]; intros d; cbn [fold_left map In fst]; [tauto|]. rewrite IH. cbn [fst snd]. rewrite dict_set_keys. intuition congruence.
Qed.
(** What the exporter has after loading a file it accepts. *)
Lemma loading h info_line : accepted h info_line -> exists data e, soec_load h [] = (data, e) /\ error e = None /\
  (forall sel, In sel (keys e) <-> is_offered h sel) /\ (forall key d, In (key, d) data -> cut h key d) /\ (forall key d, cut h key d -> exists d', In (key, d') data).
Proof.
  intros (I & S0). unfold soec_load. rewrite I. assert (F : exists d, find "stiffness" (datasets h) = Some d) by now apply in_find. destruct F as (d0 & ->).
  eexists _, _. split; [reflexivity|]. cbn [error keys]. split; [reflexivity|]. set (polar := filter _ _).
  assert (PO : forall key d, In (key, d) polar <-> cut h key d).
  { intros key d. unfold polar. rewrite filter_In. cbn [fst]. rewrite contains_in. unfold cut. split; intros (A & B); (split; [|exact B]).
    - exact (Permutation_in _ (by_name_perm (datasets h)) A).
    - exact (Permutation_in _ (Permutation_sym (by_name_perm (datasets h))) A). }
  split; [|split].
  - intros sel. rewrite in_app_iff. unfold is_offered. destruct (existsb (fun kd => contains "waves" (fst kd)) polar) eqn:X.
    + apply existsb_exists in X as ((key & d) & A & B). cbn [fst] in B. apply PO in A. apply contains_in in B. cbn [In]. split; [|intuition congruence].
      intros [A'|[<-|[]]]; [now left|right; eauto].
    + split; [intros [A|[]]; now left|]. intros [A|(_ & key & d & A & B)]; [now left|]. exfalso. enough (existsb (fun kd => contains "waves" (fst kd)) polar = true) by congruence.
      apply existsb_exists. exists (key, d). split; [now apply PO|]. cbn [fst]. now apply contains_in.
  - intros key d H. apply fill_in in H as [H|[]]. now apply PO.
  - intros key d H. apply PO in H. assert (K : In key (map fst polar)) by (now apply (in_map fst) in H).
    assert (K' : In key (map fst (fold_left (fun l kd => dict_set (fst kd) (snd kd) l) polar []))) by (apply fill_keys; now left).
    apply in_map_iff in K' as ((key' & d') & E & K'). cbn [fst] in E. subst key'. eauto.
Qed.
Lemma offered_known h sel : is_offered h sel -> In sel polar_names.
Proof. intros [H|(-> & _)]; cbn [polar_names In] in *; tauto. Qed.
(** Tables which are gathered have a row for every angle. *)
Definition even (fr : frame) : Prop := List.length (angles fr) = List.length (rows fr).
Lemma hstack_length m n l m' n' : hstack m n l = Some (m', n') -> List.length m' = List.length m.
Proof.
  revert m n. induction l as [|d l IH]; intros m n; cbn [hstack]; [now intros [= -> ->]|]. destruct (Nat.eqb_spec (List.length m) (List.length (matrix_of (values d)))) as [E|]; [|discriminate].
  intros H. apply IH in H. rewrite H, map_length, combine_length. lia.
Qed.
Lemma hstack_uneven m n l : hstack m n l = None -> exists d, In d l /\ List.length (matrix_of (values d)) <> List.length m.
Proof.
  revert m n. induction l as [|d l IH]; intros m n; cbn [hstack]; [discriminate|]. destruct (Nat.eqb_spec (List.length m) (List.length (matrix_of (values d)))) as [E|N]; [|exists d; split; [now left|congruence]].
  intros H. apply IH in H as (d' & A & B). exists d'. split; [now right|]. rewrite map_length, combine_length in B. lia.
Qed.
Lemma gathered data sel kept fr : gather data sel kept = inl fr -> (forall fr', kept = Some fr' -> even fr') -> even fr.
Proof.
  unfold gather. destruct (map snd _) as [|d l].
  - destruct kept as [fr'|]; [|discriminate]. intros [= ->] H. now apply H.
  - destruct (hstack _ _ l) as [[value n]|] eqn:E; [|discriminate]. intros [= <-] _. unfold even. cbn [angles rows]. rewrite (hstack_length _ _ _ _ _ E). now rewrite !map_length.
Qed.
Lemma not_gathered data sel kept e : gather data sel kept = inr e ->
  (e = "UnboundLocalError" /\ kept = None /\ forall key d, In (key, d) data -> ~ within sel key) \/
  (e = "ValueError" /\ exists key key' d d', In (key, d) data /\ In (key', d') data /\ within sel key /\ within sel key' /\ List.length (matrix_of (values d)) <> List.length (matrix_of (values d'))).
Proof.
  unfold gather. destruct (map snd _) as [|d l] eqn:M.
  - destruct kept; [discriminate|]. intros [= <-]. left. split; [reflexivity|]. split; [reflexivity|]. intros key d I W. apply contains_in in W.
    assert (X : In d (map snd (filter (fun kd => contains sel (fst kd)) data))) by (apply in_map_iff; exists (key, d); split; [reflexivity|]; apply filter_In; now split). rewrite M in X. destruct X.
  - assert (X : forall d', In d' (d :: l) -> exists key, In (key, d') data /\ within sel key).
    { intros d' I. rewrite <- M in I. apply in_map_iff in I as ((key & d1) & <- & I). apply filter_In in I as (I & W). cbn [fst snd] in *. exists key. split; [exact I|now apply contains_in]. }
    destruct (hstack _ _ l) as [[value n]|] eqn:E; [discriminate|]. intros [= <-]. right. split; [reflexivity|]. apply hstack_uneven in E as (d' & I & N). rewrite map_length in N.
    destruct (X d (or_introl eq_refl)) as (key & A1 & A2), (X d' (or_intror I)) as (key' & B1 & B2). exists key', key, d', d. auto.
Qed.
Lemma table_done fr sel : In sel polar_names -> even fr -> snd (table_of fr sel) = Done /\ entitled (fst (table_of fr sel)) sel.
Proof.
  intros N L. assert (K : exists k, soec_types sel = Some k /\ find sel titles = Some (sdesc k)) by (cbn [polar_names In] in N; decompose [or False] N; subst sel; eexists; split; reflexivity).
  destruct K as (k & K & T). unfold table_of. split; [now rewrite (soec_written _ _ _ _ _ k K L)|]. unfold entitled. unfold soec_write. destruct (soec_space _) as [totw dataw]. rewrite K.
  unfold put. cbn [fst]. eexists (sdesc k), _. split; [exact T|]. unfold file_header. rewrite !append_assoc. reflexivity.
Qed.

Section Any.
Variable complaint : string -> list string -> string.
Variable data : list (string * dataset).
Variable choices : list string.
Variable f : string.
Hypothesis CH : forall sel, In sel choices -> In sel polar_names.
Variable tables : string -> string -> Prop.
Hypothesis TB : forall sel kept fr, In sel choices -> (forall fr', kept = Some fr' -> even fr') -> gather data sel kept = inl fr -> tables sel (fst (table_of fr sel)).
Notation base := (CliModel.root f).
Notation talk := (dialogue complaint data choices base).
Definition where_ (pre : list string) (now : files) (at_ : stage) : Prop :=
  match at_ with
  | Choosing kept => forall fr, kept = Some fr -> even fr
  | Continuing fr => even fr
  | Overwriting fr sel => even fr /\ tables sel (fst (table_of fr sel)) /\ In sel choices /\ now (offered f sel) <> CliModel.Absent /\ exists a junk, pre = a ++ sel :: junk /\ Forall unclear junk
  | Naming fr sel => even fr /\ tables sel (fst (table_of fr sel)) /\ In sel choices /\ now (offered f sel) <> CliModel.Absent /\
      exists a junk n blanks, pre = a ++ sel :: junk ++ n :: blanks /\ Forall unclear junk /\ declines n /\ Forall (eq "") blanks
  end.
Definition ending_of (typed : list string) (r : CliModel.result unit) : Prop :=
  r = CliModel.Ok tt \/ r = CliModel.Raises "Abort" \/ r = CliModel.Raises "IsADirectoryError" \/
  exists sel kept e, In sel typed /\ In sel choices /\ gather data sel kept = inr e /\ r = CliModel.Raises e.
Notation fine typed now m := (exists r v, m = (r, v) /\ changed tables f typed now (CliModel.fs v) /\ ending_of typed r).
Lemma saves typed fr sel file w (go : CliModel.M unit) : even fr -> tables sel (fst (table_of fr sel)) -> In sel choices -> (CliModel.fs w file <> CliModel.Dir -> placed f typed (CliModel.fs w) sel file) ->
  (forall v, fine typed (CliModel.fs v) (go v)) ->
  fine typed (CliModel.fs w) (CliModel.bind (save fr sel file) (fun _ => CliModel.bind (ask more_question) (fun _ => go)) w).
Proof.
  intros Ev T K P G. destruct (table_done fr sel (CH sel K) Ev) as (E & _). unfold save, CliModel.bind, CliModel.write. rewrite E.
  assert (X : CliModel.fs w file <> CliModel.Dir ->
    fine typed (CliModel.fs w) (match echo ("Data successfully exported to '" +++ file +++ "'")
       {| CliModel.fs := CliModel.update (CliModel.fs w) file (CliModel.File (fst (table_of fr sel))); CliModel.screen := CliModel.screen w |} with
     | (CliModel.Ok _, v) => match ask more_question v with (CliModel.Ok _, v0) => go v0 | (CliModel.Raises e, v0) => (CliModel.Raises e, v0) end
     | (CliModel.Raises e, v) => (CliModel.Raises e, v) end)).
  { intros D. specialize (P D). set (w1 := {| CliModel.fs := _; CliModel.screen := _ |}). cbn -[w1]. set (w2 := {| CliModel.fs := _; CliModel.screen := _ |}).
    destruct (G w2) as (r & v & E1 & E2 & E3). exists r, v. split; [exact E1|]. split; [|exact E3]. exact (one_saved tables f typed _ sel file _ _ T P E2). }
  destruct (CliModel.fs w file) eqn:F; [apply X; discriminate|apply X; discriminate|].
  eexists _, _. split; [reflexivity|]. split; [apply unchanged|]. right; right; left. reflexivity.
Qed.
Lemma any_answer typed rest : forall pre at_ w, typed = pre ++ rest -> where_ pre (CliModel.fs w) at_ -> fine typed (CliModel.fs w) (talk at_ rest w).
Proof.
  induction rest as [|t rest IH]; intros pre at_ w E W.
  { exists (CliModel.Raises "Abort"), w. split; [now destruct at_|]. split; [apply unchanged|]. right; left. reflexivity. }
  assert (T : In t typed) by (rewrite E; apply in_or_app; right; now left).
  assert (E' : typed = (pre ++ [t]) ++ rest) by (rewrite <- app_assoc; exact E).
  assert (Ask : forall question at' v0, CliModel.fs v0 = CliModel.fs w -> where_ (pre ++ [t]) (CliModel.fs w) at' -> fine typed (CliModel.fs w) (CliModel.bind (ask question) (fun _ => talk at' rest) v0)).
  { intros q at' v0 F0 W'. change (fine typed (CliModel.fs w) (talk at' rest {| CliModel.fs := CliModel.fs v0; CliModel.screen := CliModel.screen v0 ++ [(CliModel.Question, q)] |})). rewrite F0.
    apply (IH (pre ++ [t]) at' {| CliModel.fs := CliModel.fs w; CliModel.screen := CliModel.screen v0 ++ [(CliModel.Question, q)] |} E' W'). }
  assert (Say : forall msg question at', where_ (pre ++ [t]) (CliModel.fs w) at' -> fine typed (CliModel.fs w) (CliModel.bind (echo msg) (fun _ => CliModel.bind (ask question) (fun _ => talk at' rest)) w)).
  { intros msg q at' W'. exact (Ask q at' {| CliModel.fs := CliModel.fs w; CliModel.screen := CliModel.screen w ++ [(CliModel.Plain, msg)] |} eq_refl W'). }
  assert (Go : forall fr, even fr -> forall v, fine typed (CliModel.fs v) (talk (Continuing fr) rest v)) by (intros fr Ev v; apply (IH (pre ++ [t]) (Continuing fr) v E' Ev)).
  destruct at_ as [kept|fr sel|fr sel|fr]; cbn [dialogue where_] in *.
  - destruct (String.eqb_spec t "") as [->|N]; [apply Ask; [reflexivity|exact W]|]. destruct (mem t choices) eqn:Mt; [|apply Say; exact W].
    apply mem_in in Mt. destruct (gather data t kept) as [fr|e] eqn:Ga.
    2: { exists (CliModel.Raises e), w. split; [reflexivity|]. split; [apply unchanged|]. right; right; right. exists t, kept, e. auto. }
    pose proof (gathered _ _ _ _ Ga W) as Ev. pose proof (TB t kept fr Mt W Ga) as Tb.
    erewrite bind_ok; [|reflexivity]. cbv beta. change (default_name base t) with (offered f t).
    assert (O : CliModel.fs w (offered f t) <> CliModel.Absent -> fine typed (CliModel.fs w) (CliModel.bind (ask (overwrite_question (offered f t))) (fun _ => talk (Overwriting fr t) rest) w)).
    { intros A. apply Ask; [reflexivity|]. cbn [where_]. do 4 (split; [assumption|]). exists pre, []. split; [reflexivity|constructor]. }
    destruct (CliModel.fs w (offered f t)) eqn:F; [|apply O; discriminate|apply O; discriminate].
    apply saves; [exact Ev|exact Tb|exact Mt| |exact (Go fr Ev)]. intros _. left. split; [reflexivity|]. split; [exact F|exact T].
  - destruct W as (Ev & Tb & K & A & a & junk & Ep & U).
    destruct (confirm_cases t) as [(-> & Y)|[(-> & N)|(-> & J)]].
    + apply saves; [exact Ev|exact Tb|exact K| |exact (Go fr Ev)]. change (default_name base sel) with (offered f sel). intros D. right; left. split; [reflexivity|]. split.
      * destruct (CliModel.fs w (offered f sel)); [contradiction|eauto|contradiction].
      * exists a, junk, t, rest. split; [rewrite E, Ep, <- app_assoc; reflexivity|auto].
    + apply Ask; [reflexivity|]. cbn [where_]. do 4 (split; [assumption|]). exists a, junk, t, []. split; [rewrite Ep, <- app_assoc; reflexivity|auto].
    + apply Say. cbn [where_]. do 4 (split; [assumption|]). exists a, (junk ++ [t]). split; [rewrite Ep, <- app_assoc; reflexivity|]. apply Forall_app. auto.
  - destruct W as (Ev & Tb & K & A & a & junk & n & blanks & Ep & U & Dn & B).
    destruct (String.eqb_spec t "") as [->|N].
    + apply Ask; [reflexivity|]. cbn [where_]. do 4 (split; [assumption|]). exists a, junk, n, (blanks ++ [""]). split; [|split; [exact U|split; [exact Dn|apply Forall_app; auto]]].
      rewrite Ep. rewrite <- app_assoc. cbn [app]. rewrite <- app_assoc. reflexivity.
    + apply saves; [exact Ev|exact Tb|exact K| |exact (Go fr Ev)]. intros D. right; right. split; [exact A|]. split; [exact D|]. exists a, junk, n, blanks, rest. split; [|auto].
      rewrite E, Ep. rewrite <- app_assoc. cbn [app]. rewrite <- app_assoc. reflexivity.
  - destruct (confirm_cases t) as [(-> & Y)|[(-> & N)|(-> & J)]].
    + apply Say. cbn [where_]. intros fr' [= <-]. exact W.
    + exists (CliModel.Ok tt), w. split; [reflexivity|]. split; [apply unchanged|]. left. reflexivity.
    + apply Say. exact W.
Qed.
End Any.

Section Files.
Variable decode : string -> option h5.
Variable complaint : string -> list string -> string.
Variables (f : string) (w : CliModel.world).
Notation command := (export_main decode complaint f).
(** The whole command on a file which is accepted. *)
Lemma runs bytes h info_line data e typed : CliModel.fs w f = CliModel.File bytes -> decode bytes = Some h -> info h = Some info_line -> soec_load h [] = (data, e) -> error e = None ->
  command typed w = match dialogue complaint data (keys e) (CliModel.root f) (Choosing None) typed {| CliModel.fs := CliModel.fs w; CliModel.screen := CliModel.screen w ++ greeting info_line |} with
    | (CliModel.Ok _, v) => (CliModel.Ok tt, {| CliModel.fs := CliModel.fs v; CliModel.screen := CliModel.screen v ++ farewell |})
    | (CliModel.Raises e, v) => (CliModel.Raises e, v)
    end.
Proof.
  intros F D I L Er. unfold export_main, CliModel.bind at 1. cbn [CliModel.look]. rewrite F. unfold body, CliModel.bind at 1. unfold highlight at 1, CliModel.echo_highlight at 1, CliModel.bind at 1.
  cbn [negb CliModel.show CliModel.log CliModel.ret]. unfold CliModel.bind at 1. cbn [CliModel.look CliModel.fs]. rewrite F, D, L, Er, I. unfold CliModel.bind at 1.
  set (w0 := {| CliModel.fs := _; CliModel.screen := CliModel.screen w ++ greeting info_line |}).
  replace (run complaint data (keys e) (CliModel.root f) info_line typed {| CliModel.fs := CliModel.fs w; CliModel.screen := CliModel.screen w ++ [(CliModel.Highlight, CitationsModel.quantas_title)] |})
    with (dialogue complaint data (keys e) (CliModel.root f) (Choosing None) typed w0).
  - destruct (dialogue _ _ _ _ _ _ w0) as [[[]|e'] v]; [|reflexivity]. cbn. do 2 f_equal. unfold farewell. cbn [map]. now rewrite <- !app_assoc.
  - unfold run, echo, CliModel.echo, ask, CliModel.bind, CliModel.show, CliModel.log, CliModel.ret. cbn [negb CliModel.fs CliModel.screen]. unfold w0, greeting, message, question, choice_question. now rewrite <- !app_assoc.
Qed.
(** Whatever is typed: the session ends, is interrupted by the end of the lines, fails
    because a name is that of a directory, because the file holds no cut of what was
    chosen first, or because cuts have different numbers of rows. Files are changed by
    complete tables entitled as chosen only, at the name offered if it is free or the
    user agrees, or at the name they typed. *)
Theorem C99_any_answers bytes h info_line typed : CliModel.fs w f = CliModel.File bytes -> decode bytes = Some h -> accepted h info_line ->
  exists r v, command typed w = (r, v) /\ changed (fun sel text => is_offered h sel /\ entitled text sel) f typed (CliModel.fs w) (CliModel.fs v) /\
  (r = CliModel.Ok tt \/ r = CliModel.Raises "Abort" \/ r = CliModel.Raises "IsADirectoryError" \/ exists sel, In sel typed /\ is_offered h sel /\
    ((r = CliModel.Raises "UnboundLocalError" /\ forall key d, cut h key d -> ~ within sel key) \/
     (r = CliModel.Raises "ValueError" /\ exists key key' d d', cut h key d /\ cut h key' d' /\ within sel key /\ within sel key' /\ List.length (matrix_of (values d)) <> List.length (matrix_of (values d'))))).
Proof.
  intros F D A. destruct (loading h info_line A) as (data & e & L & Er & K & D1 & D2). rewrite (runs bytes h info_line data e typed F D (proj1 A) L Er).
  set (w0 := {| CliModel.fs := _; CliModel.screen := CliModel.screen w ++ _ |}).
  destruct (any_answer complaint data (keys e) f) with (tables := fun sel text => is_offered h sel /\ entitled text sel) (typed := typed) (rest := typed) (pre := @nil string) (at_ := Choosing None) (w := w0) as (r & v & E1 & E2 & E3).
  - intros sel I. apply K in I. exact (offered_known h sel I).
  - intros sel kept fr I Ev G. split; [now apply K|]. apply table_done; [apply K in I; exact (offered_known h sel I)|exact (gathered _ _ _ _ G Ev)].
  - reflexivity.
  - intros fr. discriminate.
  - rewrite E1. assert (EN : r = CliModel.Ok tt \/ r = CliModel.Raises "Abort" \/ r = CliModel.Raises "IsADirectoryError" \/ exists sel, In sel typed /\ is_offered h sel /\
    ((r = CliModel.Raises "UnboundLocalError" /\ forall key d, cut h key d -> ~ within sel key) \/
     (r = CliModel.Raises "ValueError" /\ exists key key' d d', cut h key d /\ cut h key' d' /\ within sel key /\ within sel key' /\ List.length (matrix_of (values d)) <> List.length (matrix_of (values d'))))).
    { destruct E3 as [X|[X|[X|(sel & kept & ex & I1 & I2 & G & ->)]]]; auto. right; right; right. exists sel. split; [exact I1|]. split; [now apply K|].
      destruct (not_gathered _ _ _ _ G) as [(-> & _ & X)|(-> & key & key' & d & d' & A1 & A2 & X)].
      - left. split; [reflexivity|]. intros key d C. destruct (D2 key d C) as (d' & I'). exact (X key d' I').
      - right. split; [reflexivity|]. exists key, key', d, d'. split; [now apply D1|]. split; [now apply D1|exact X]. }
    destruct r as [[]|er].
    + eexists _, _. split; [reflexivity|]. split; [exact E2|exact EN].
    + eexists _, _. split; [reflexivity|]. split; [exact E2|exact EN].
Qed.
End Files.
Lemma changed_kept tables f typed now later : changed tables f typed now later -> forall q, now q <> CliModel.Absent -> later q <> now q ->
  (exists sel, q = offered f sel /\ agreed typed sel) \/ exists sel, renamed typed sel q.
Proof.
  induction 1 as [now|now sel file text later T P C IH]; intros q A N; [contradiction|]. destruct (String.eqb_spec q file) as [->|D].
  - destruct P as [(_ & P & _)|[(-> & _ & P)|(_ & _ & P)]]; [contradiction|left; eauto|right; eauto].
  - assert (U : CliModel.update now file (CliModel.File text) q = now q) by (unfold CliModel.update; apply String.eqb_neq in D; now rewrite D). apply IH; rewrite U; assumption.
Qed.
Lemma changed_new (tables : string -> string -> Prop) f typed now later : changed tables f typed now later -> forall q, later q <> now q ->
  (exists sel text, tables sel text /\ later q = CliModel.File text) /\ ((exists sel, q = offered f sel /\ In sel typed) \/ exists sel, renamed typed sel q).
Proof.
  assert (dec : forall m n : CliModel.node, {m = n} + {m <> n}) by (decide equality; apply string_dec).
  induction 1 as [now|now sel file text later T P C IH]; intros q N; [contradiction|].
  destruct (dec (later q) (CliModel.update now file (CliModel.File text) q)) as [E|D]; [|exact (IH q D)]. unfold CliModel.update in E. destruct (String.eqb_spec q file) as [->|]; [|contradiction].
  split; [eauto|]. destruct P as [(-> & _ & P)|[(-> & _ & (a & junk & y & b & -> & _))|(_ & _ & P)]]; [left; eauto| |right; eauto].
  left. exists sel. split; [reflexivity|]. apply in_or_app. right. now left.
Qed.
Section Kept.
Variable decode : string -> option h5.
Variable complaint : string -> list string -> string.
Variables (f : string) (w : CliModel.world) (typed : list string).
Notation command := (export_main decode complaint f typed w).
Lemma soec_frame_kept : CliModel.fs (snd command) = CliModel.fs w \/ exists h, changed (fun sel text => is_offered h sel /\ entitled text sel) f typed (CliModel.fs w) (CliModel.fs (snd command)).
Proof.
  destruct (CliModel.fs w f) as [|bytes|] eqn:F.
  - left. unfold export_main, CliModel.bind at 1. cbn [CliModel.look]. now rewrite F.
  - destruct (decode bytes) as [h|] eqn:D.
    + destruct (C77_accepts h []) as (AC & _). destruct (soec_load h []) as [data e] eqn:L. cbn [snd fst] in AC. destruct (error e) as [m|] eqn:Er.
      * left. unfold export_main, CliModel.bind at 1. cbn [CliModel.look]. rewrite F. unfold body, CliModel.bind at 1. unfold highlight at 1, CliModel.echo_highlight at 1, CliModel.bind at 1.
        cbn [negb CliModel.show CliModel.log CliModel.ret]. unfold CliModel.bind at 1. cbn [CliModel.look CliModel.fs]. rewrite F, D, L, Er. reflexivity.
      * right. destruct (proj1 AC eq_refl) as (A1 & A2). destruct (info h) as [i|] eqn:I; [|contradiction]. exists h.
        destruct (C99_any_answers decode complaint f w bytes h i typed F D (conj I A2)) as (r & v & E & C & _). rewrite E. exact C.
    + left. unfold export_main, CliModel.bind at 1. cbn [CliModel.look]. rewrite F. unfold body, CliModel.bind at 1. unfold highlight at 1, CliModel.echo_highlight at 1, CliModel.bind at 1.
      cbn [negb CliModel.show CliModel.log CliModel.ret]. unfold CliModel.bind at 1. cbn [CliModel.look CliModel.fs]. rewrite F, D. reflexivity.
  - left. unfold export_main, CliModel.bind at 1. cbn [CliModel.look]. rewrite F. unfold body, CliModel.bind at 1. unfold highlight at 1, CliModel.echo_highlight at 1, CliModel.bind at 1.
    cbn [negb CliModel.show CliModel.log CliModel.ret]. unfold CliModel.bind at 1. cbn [CliModel.look CliModel.fs]. rewrite F. reflexivity.
Qed.
(** Whatever the file and whatever is typed: a file which was there is only replaced
    if the user agreed, or if they typed its name; a file which was not there is the
    one offered for a table they chose, or has a name they typed. What is written is a
    complete table. *)
Theorem C99_kept q : CliModel.fs (snd command) q <> CliModel.fs w q ->
  (CliModel.fs w q <> CliModel.Absent -> (exists sel, q = offered f sel /\ agreed typed sel) \/ exists sel, renamed typed sel q) /\
  ((exists sel, q = offered f sel /\ In sel typed) \/ exists sel, renamed typed sel q) /\
  (exists sel text, entitled text sel /\ CliModel.fs (snd command) q = CliModel.File text).
Proof.
  intros N. destruct soec_frame_kept as [E|(h & C)]; [rewrite E in N; contradiction|].
  split; [intros A; exact (changed_kept _ _ _ _ _ C q A N)|]. destruct (changed_new _ _ _ _ _ C q N) as ((sel & text & (_ & T) & E) & B). split; [exact B|eauto].
Qed.
End Kept.

Print Assumptions C99_any_answers.
Print Assumptions C99_kept.
