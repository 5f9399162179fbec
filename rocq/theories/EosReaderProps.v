(** Reading of EoS data files: C39, C40 and the eos part of C38. *)
From Coq Require Import Reals String Ascii List Bool Arith Lia Permutation.
From Verif Require Import Py DecimalModel DecimalProofs EosReaderModel.
Import ListNotations.
Open Scope string_scope.
Open Scope list_scope.
Arguments is_space : simpl never.
Arguments lower_ascii : simpl never.
Arguments mem : simpl never.

(** ** Vocabulary of the specification *)
(** A number at position n of a row of text. *)
Definition value (row : string) (n : nat) : option fl :=
  match nth_error (split row) n with Some t => parse_float t | None => None end.
(** The values of column n, one for each row. *)
Definition column (rows : list string) (n : nat) (xs : list fl) : Prop := Forall2 (fun r x => value r n = Some x) rows xs.
Definition keywords : list string := ["job"; "format"; "data"].
Definition comment (l : string) : Prop := is_comment l = true.
Definition comments (ls : list string) : Prop := Forall comment ls.
(** A line that is neither empty, nor a comment, nor a keyword. *)
Definition plain (l : string) : Prop := is_comment l = false /\ ~ In (keyword l) keywords.
(** Between JOB and the title: empty lines or comments. *)
Definition gap (l : string) : Prop := chomp l = "" \/ starts_with "#" (strip (chomp l)) = true.
(** rows with comments interleaved *)
Definition payload (body : list string) : list string := filter (fun l => negb (is_comment l)) body.
(** The documented layout: JOB, title, FORMAT, column names, DATA, rows, with
    comment lines anywhere and keywords in any case. *)
Definition layout (lines : list string) (title : string) (toks rows : list string) : Prop :=
  exists c0 kj c1 tl c2 kf c3 fl c4 kd body,
    lines = c0 ++ kj :: c1 ++ tl :: c2 ++ kf :: c3 ++ fl :: c4 ++ kd :: body /\
    comments c0 /\ comments c1 /\ comments c2 /\ comments c3 /\ comments c4 /\ Forall gap c1 /\
    keyword kj = "job" /\ keyword kf = "format" /\ keyword kd = "data" /\
    chomp tl = title /\ title <> "Unknown" /\ plain tl /\ strip title <> "" /\ starts_with "#" (strip title) = false /\
    plain fl /\ split fl = toks /\
    payload body = rows /\ Forall plain rows.

(** ** Comments and keywords *)
Lemma lstrip_head s : match lstrip s with String a _ => is_space a = false | EmptyString => True end.
Proof. induction s as [|a s IH]; simpl; [exact I|]. destruct (is_space a) eqn:E; [exact IH|exact E]. Qed.
Lemma split_lstrip s : split s = split (lstrip s).
Proof. unfold split. induction s as [|a s IH]; simpl; [reflexivity|]. destruct (is_space a) eqn:E; [exact IH|]. simpl. now rewrite E. Qed.
Lemma split_aux_head a cur s : exists w r, split_aux (String a cur) s = String a w :: r.
Proof.
  revert cur; induction s as [|b s IH]; intros cur; simpl; [eauto|]. destruct (is_space b); [eauto|]. simpl. apply IH.
Qed.
Lemma rstrip_head a s : is_space a = false -> rstrip (String a s) = String a (rstrip s).
Proof. intros H. simpl. rewrite H. reflexivity. Qed.
Lemma comment_keyword l : comment l -> ~ In (keyword l) keywords.
Proof.
  unfold comment, is_comment, keyword, strip. rewrite split_lstrip. pose proof (lstrip_head l) as H.
  destruct (lstrip l) as [|a s].
  - intros _ [E|[E|[E|[]]]]; discriminate.
  - rewrite rstrip_head by exact H. cbn [starts_with]. intros E. apply Ascii.eqb_eq in E. subst a.
    unfold split. cbn [split_aux]. rewrite H. cbn [append].
    destruct (split_aux_head "#" "" s) as (w & r & ->). cbn [hd lower]. 
    intros [E|[E|[E|[]]]]; discriminate.
Qed.
Lemma keyword_line l : In (keyword l) keywords -> is_comment l = false.
Proof. intros H. destruct (is_comment l) eqn:E; [|reflexivity]. exfalso. exact (comment_keyword l E H). Qed.
Lemma not_keyword l : ~ In (keyword l) keywords ->
  String.eqb (keyword l) "job" = false /\ String.eqb (keyword l) "format" = false /\ String.eqb (keyword l) "data" = false.
Proof. intros H. repeat split; apply String.eqb_neq; intros E; apply H; rewrite E; simpl; auto. Qed.
Lemma load_skip l r d e : ~ In (keyword l) keywords -> load_from (l :: r) d e = load_from r d e.
Proof. intros H. cbn [load_from]. destruct (is_comment l); [reflexivity|]. destruct (not_keyword l H) as (-> & -> & ->). reflexivity. Qed.
Definition neutral (l : string) := ~ In (keyword l) keywords.
Lemma load_skips ls r d e : Forall neutral ls -> load_from (ls ++ r) d e = load_from r d e.
Proof. induction 1 as [|l ls H F IH]; [reflexivity|]. cbn [app]. rewrite load_skip by exact H. exact IH. Qed.
Lemma comments_neutral ls : comments ls -> Forall neutral ls.
Proof. intros H. eapply Forall_impl; [|exact H]. apply comment_keyword. Qed.
Lemma load_comments ls r d e : comments ls -> load_from (ls ++ r) d e = load_from r d e.
Proof. intros H. now apply load_skips, comments_neutral. Qed.
Lemma load_plain l r d e : plain l -> load_from (l :: r) d e = load_from r d e.
Proof. intros (_ & H). now apply load_skip. Qed.
Lemma load_job k r d e : keyword k = "job" ->
  load_from (k :: r) d e = match set_job_name r d with (d', None) => load_from r d' e | (d', s) => (d', e, s) end.
Proof.
  intros K. cbn [load_from]. rewrite (keyword_line k) by (rewrite K; simpl; auto). rewrite K. cbn [String.eqb Ascii.eqb Bool.eqb].
  change (String.eqb "job" "job") with true. cbv iota. destruct (set_job_name r d) as (d' & [s|]); reflexivity.
Qed.
Lemma load_format k r d e : keyword k = "format" ->
  load_from (k :: r) d e = match set_data_format r d with (d', None) => load_from r d' e | (d', s) => (d', e, s) end.
Proof.
  intros K. cbn [load_from]. rewrite (keyword_line k) by (rewrite K; simpl; auto). rewrite K.
  change (String.eqb "format" "job") with false. change (String.eqb "format" "format") with true. cbv iota.
  destruct (set_data_format r d) as (d' & [s|]); reflexivity.
Qed.
Lemma load_data k r d e : keyword k = "data" ->
  load_from (k :: r) d e = match set_data r d e with (d', e', None) => load_from r d' e' | (d', e', s) => (d', e', s) end.
Proof.
  intros K. cbn [load_from]. rewrite (keyword_line k) by (rewrite K; simpl; auto). rewrite K.
  change (String.eqb "data" "job") with false. change (String.eqb "data" "format") with false. change (String.eqb "data" "data") with true. cbv iota.
  destruct (set_data r d e) as ((d' & e') & [s|]); reflexivity.
Qed.
Lemma job_gap c l r d : Forall gap c -> chomp l <> "Unknown" -> strip (chomp l) <> "" -> starts_with "#" (strip (chomp l)) = false ->
  job_from (c ++ l :: r) d = (set_job d (chomp l), None).
Proof.
  intros G U N H. induction G as [|x c G F IH]; cbn [app job_from].
  - destruct (chomp l) as [|a s] eqn:E; [now destruct N|]. destruct (strip (String a s)) as [|b t]; [now destruct N|].
    rewrite H. apply String.eqb_neq in U. rewrite U. reflexivity.
  - destruct G as [->|G]; [exact IH|]. destruct (chomp x) as [|a s]; [discriminate|]. destruct (strip (String a s)) as [|b t]; [discriminate|].
    rewrite G. exact IH.
Qed.
Lemma format_gap c l r d : comments c -> is_comment l = false ->
  set_data_format (c ++ l :: r) d = (set_fmt d (add_tokens 0 (split l) (fmt d)), None).
Proof. intros C N. induction C as [|x c G F IH]; cbn [app set_data_format]; [now rewrite N|]. rewrite G. exact IH. Qed.

(** ** The dictionary of columns *)
Fixpoint get (k : string) (f : list (string * nat)) : option nat :=
  match f with [] => None | (q, n) :: r => if String.eqb k q then Some n else get k r end.
Definition names (f : list (string * nat)) := List.map fst f.
Lemma get_set k k' n f : get k (dict_set k' n f) = if String.eqb k k' then Some n else get k f.
Proof.
  induction f as [|(q, m) f IH]; simpl.
  - reflexivity.
  - destruct (String.eqb_spec k' q) as [->|N]; simpl.
    + destruct (String.eqb k q); reflexivity.
    + rewrite IH. destruct (String.eqb_spec k q) as [->|]; [|reflexivity].
      destruct (String.eqb_spec q k'); [congruence|reflexivity].
Qed.
Lemma names_set k n f : NoDup (names f) -> NoDup (names (dict_set k n f)).
Proof.
  assert (I : forall q f, In q (names (dict_set k n f)) -> q = k \/ In q (names f)).
  { clear. intros q f. induction f as [|(q', m) f IH]; simpl; [intuition|]. destruct (String.eqb_spec k q'); simpl; intuition. }
  induction f as [|(q, m) f IH]; simpl; intros H.
  - constructor; [intros []|constructor].
  - inversion H as [|? ? N F]; subst. destruct (String.eqb_spec k q) as [->|Nk]; simpl.
    + now constructor.
    + constructor; [|now apply IH]. intros X. apply I in X. destruct X; [congruence|contradiction].
Qed.
Lemma names_add i toks f : NoDup (names f) -> NoDup (names (add_tokens i toks f)).
Proof.
  revert i f; induction toks as [|t toks IH]; intros i f H; simpl; [exact H|]. apply IH. destruct (mem (lower t) known); [now apply names_set|exact H].
Qed.
Lemma get_add_out k i toks f : ~ In k (List.map lower toks) \/ mem k known = false -> get k (add_tokens i toks f) = get k f.
Proof.
  revert i f; induction toks as [|t toks IH]; intros i f H; simpl; [reflexivity|]. rewrite IH by (simpl in H; tauto).
  destruct (mem (lower t) known) eqn:M; [|reflexivity]. rewrite get_set. destruct (String.eqb_spec k (lower t)) as [->|]; [|reflexivity].
  exfalso. destruct H as [H|H]; [apply H; now left|congruence].
Qed.
Lemma get_add k i j toks f t : NoDup (List.map lower toks) -> nth_error toks j = Some t -> lower t = k -> mem k known = true ->
  get k (add_tokens i toks f) = Some (i + j).
Proof.
  intros ND E L M. revert i j f ND E. induction toks as [|u toks IH]; intros i j f ND E; [destruct j; discriminate|].
  simpl in ND. inversion ND as [|? ? N F]; subst. destruct j as [|j]; cbn [nth_error] in E; cbn [add_tokens].
  - injection E as ->. rewrite get_add_out by now left. rewrite M, get_set, String.eqb_refl. f_equal. lia.
  - rewrite (IH (S i) j _ F E). f_equal. lia.
Qed.
Lemma has_key_get k f : has_key k f = true <-> exists n, get k f = Some n.
Proof.
  induction f as [|(q, m) f IH]; simpl; [split; [discriminate|intros (n & X); discriminate]|].
  destruct (String.eqb k q); simpl; [split; eauto|exact IH].
Qed.
Lemma get_in k n f : NoDup (names f) -> In (k, n) f -> get k f = Some n.
Proof.
  induction f as [|(q, m) f IH]; simpl; intros ND X; [destruct X|destruct X as [E|I]].
  - injection E as -> ->. now rewrite String.eqb_refl.
  - inversion ND as [|? ? N F]; subst. destruct (String.eqb_spec k q) as [->|]; [|now apply IH].
    exfalso. apply N. apply (in_map fst) in I. exact I.
Qed.

(** ** Reading the rows *)
Lemma table_payload f body : table f body = table f (payload body).
Proof.
  induction body as [|l r IH]; simpl; [reflexivity|]. destruct (is_comment l) eqn:E; simpl; [exact IH|]. rewrite E, IH. reflexivity.
Qed.
Definition readable (f : list (string * nat)) (row : string) := Forall (fun p => value row (snd p) <> None) f.
Lemma row_values_ok f row : readable f row -> exists xs, row_values f (split row) = inl xs /\ Forall2 (fun p x => value row (snd p) = Some x) f xs.
Proof.
  induction 1 as [|(q, n) f H F (xs & IH & V)]; simpl; [eauto|]. unfold value in H at 1. simpl in H. 
  destruct (nth_error (split row) n) as [t|] eqn:E; [|contradiction]. destruct (parse_float t) as [x|] eqn:P; [|contradiction].
  rewrite IH. exists (x :: xs). split; [reflexivity|]. constructor; [|exact V]. unfold value. simpl. now rewrite E.
Qed.
Lemma table_ok f rows : Forall (readable f) rows -> Forall (fun l => is_comment l = false) rows ->
  exists xss, table f rows = inl xss /\ Forall2 (fun row xs => Forall2 (fun p x => value row (snd p) = Some x) f xs) rows xss.
Proof.
  induction rows as [|l rows IH]; intros H C; simpl; [eauto|]. inversion H as [|? ? Hl Hr]; subst. inversion C as [|? ? Cl Cr]; subst.
  destruct (row_values_ok f l Hl) as (xs & -> & V). destruct (IH Hr Cr) as (xss & -> & W). rewrite Cl. eauto.
Qed.
Lemma store_other k f rows d q : ~ In q (names f) -> cols (store_columns k f rows d) q = cols d q.
Proof.
  revert k d; induction f as [|(q', n) f IH]; intros k d H; simpl; [reflexivity|]. simpl in H. rewrite IH by tauto. simpl.
  destruct (String.eqb_spec q q') as [->|]; [|reflexivity]. exfalso. apply H. now left.
Qed.
Lemma store_job k f rows d : job (store_columns k f rows d) = job d.
Proof. revert k d; induction f as [|(q', n) f IH]; intros k d; simpl; [reflexivity|]. now rewrite IH. Qed.
Lemma store_fmt k f rows d : fmt (store_columns k f rows d) = fmt d.
Proof. revert k d; induction f as [|(q', n) f IH]; intros k d; simpl; [reflexivity|]. now rewrite IH. Qed.
Lemma store_in k f rows d j q n : NoDup (names f) -> nth_error f j = Some (q, n) ->
  cols (store_columns k f rows d) q = Some (List.map (fun row => nth (k + j) row NaN) rows).
Proof.
  revert k d j; induction f as [|(q', n') f IH]; intros k d j ND E; [destruct j; discriminate|].
  simpl in ND. inversion ND as [|? ? N F]; subst. destruct j as [|j]; cbn [nth_error] in E; cbn [store_columns].
  - injection E as -> ->. rewrite store_other by exact N. cbn [set_col cols]. rewrite String.eqb_refl. f_equal.
    apply map_ext. intros row. f_equal. lia.
  - rewrite (IH (S k) _ j F E). f_equal. apply map_ext. intros row. f_equal. lia.
Qed.
Lemma Forall2_nth {A B} (P : A -> B -> Prop) l l' i a b0 : Forall2 P l l' -> nth_error l i = Some a -> P a (nth i l' b0).
Proof.
  intros F. revert i. induction F as [|x y l l' H F IH]; intros [|i] E; try discriminate; simpl in *.
  - now injection E as ->.
  - now apply IH.
Qed.
Lemma set_data_ok body d e rows : payload body = rows -> Forall (fun l => is_comment l = false) rows ->
  NoDup (names (fmt d)) -> get "p" (fmt d) <> None -> Forall (readable (fmt d)) rows ->
  exists d', set_data body d e = (d', e, None) /\ job d' = job d /\ fmt d' = fmt d /\
    (forall q n, get q (fmt d) = Some n -> exists xs, cols d' q = Some xs /\ column rows n xs) /\
    (forall q, get q (fmt d) = None -> cols d' q = cols d q).
Proof.
  intros B C ND P H. unfold set_data.
  assert (K : has_key "p" (fmt d) = true) by (apply has_key_get; destruct (get "p" (fmt d)); [eauto|contradiction]).
  destruct (table_ok (fmt d) rows H C) as (xss & T & V).
  assert (G : forall q n, get q (fmt d) = Some n -> In (q, n) (fmt d)).
  { intros q n. clear. induction (fmt d) as [|(q', n') f IH]; simpl; [discriminate|]. destruct (String.eqb_spec q q') as [->|]; [|auto].
    intros E. injection E as ->. now left. }
  assert (NI : forall q, get q (fmt d) = None -> ~ In q (names (fmt d))).
  { intros q. clear. induction (fmt d) as [|(q', n') f IH]; simpl; [tauto|]. destruct (String.eqb_spec q q') as [->|]; [discriminate|].
    intros E [X|X]; [congruence|]. now apply IH. }
  exists (store_columns 0 (fmt d) xss d). split.
  - destruct (fmt d) as [|p f] eqn:Ef; [discriminate|]. rewrite K, table_payload, B, T. reflexivity.
  - split; [apply store_job|]. split; [apply store_fmt|]. split.
    + intros q n E. apply G in E. apply In_nth_error in E. destruct E as (j & E).
      exists (List.map (fun row => nth j row NaN) xss). split; [apply (store_in 0 _ _ _ j q n ND E)|].
      unfold column. clear T B. induction V as [|row xs rows xss Hx V IH]; [constructor|].
      inversion H; subst. inversion C; subst. simpl. constructor; [|apply IH; auto].
      apply (Forall2_nth _ _ _ _ _ NaN Hx E).
    + intros q E. apply store_other, NI, E.
Qed.

(** ** C39 *)
(** Position n of the FORMAT line names quantity q. *)
(** (columns which the reader recognises) *)
Definition documented : list string :=
  ["p"; "v"; "a"; "b"; "c"; "sigmap"; "sigp"; "sigmav"; "sigv"; "sigmaa"; "siga"; "sigmab"; "sigb"; "sigmac"; "sigc"].
Lemma known_documented : known = documented. Proof. reflexivity. Qed.
Definition names_column (toks : list string) (q : string) (n : nat) : Prop :=
  exists t, nth_error toks n = Some t /\ lower t = q /\ In q documented.
Lemma mem_in k l : mem k l = true <-> In k l.
Proof.
  unfold mem. rewrite existsb_exists. split; [intros (x & I & E); apply String.eqb_eq in E; now subst|]. intros I. exists k. split; [exact I|apply String.eqb_refl].
Qed.
Lemma readable_add toks row : NoDup (List.map lower toks) -> (forall q n, names_column toks q n -> value row n <> None) ->
  readable (add_tokens 0 toks []) row.
Proof.
  intros ND H. unfold readable. apply Forall_forall. intros (q, n) I. simpl.
  pose proof (get_in q n _ (names_add 0 toks [] (NoDup_nil _)) I) as G.
  destruct (in_dec String.string_dec q (List.map lower toks)) as [L|L].
  - destruct (mem q known) eqn:M.
    + apply in_map_iff in L. destruct L as (t & L & T). apply In_nth_error in T. destruct T as (j & T).
      rewrite (get_add q 0 j toks [] t ND T L M) in G. injection G as <-. simpl.
      apply (H q). exists t. rewrite mem_in in M. auto.
    + rewrite get_add_out in G by now right. discriminate.
  - rewrite get_add_out in G by now left. discriminate.
Qed.
(** A file in the documented layout is read as what it says: every named column
    becomes the array of that quantity, nothing else is touched. *)
Theorem C39_reads lines title toks rows d :
  layout lines title toks rows -> job d = "Unknown" -> fmt d = [] -> NoDup (List.map lower toks) -> In "p" (List.map lower toks) ->
  (forall row q n, In row rows -> names_column toks q n -> value row n <> None) ->
  exists d', load lines d = (d', Completed) /\ job d' = title /\
    (forall q n, names_column toks q n -> exists xs, cols d' q = Some xs /\ column rows n xs) /\
    (forall q, (forall n, ~ names_column toks q n) -> cols d' q = cols d q).
Proof.
  intros (c0 & kj & c1 & tl & c2 & kf & c3 & fl & c4 & kd & body & -> & C0 & C1 & C2 & C3 & C4 & G1 & Kj & Kf & Kd & Tl & Tu & Tp & Ts & Th & Fp & Ft & B & Rp) J F ND P V.
  subst title. set (d1 := set_job d (chomp tl)). set (d2 := set_fmt d1 (add_tokens 0 toks [])).
  assert (GN : forall q n, names_column toks q n -> get q (fmt d2) = Some n).
  { intros q n (t & E & L & K). cbn [fmt d2 set_fmt]. rewrite (get_add q 0 n toks [] t ND E L); [reflexivity|]. now apply mem_in. }
  assert (GO : forall q, (forall n, ~ names_column toks q n) -> get q (fmt d2) = None).
  { intros q N. cbn [fmt d2 set_fmt]. rewrite get_add_out; [reflexivity|].
    destruct (mem q known) eqn:M; [left|now right]. intros I. apply in_map_iff in I. destruct I as (t & L & T). apply In_nth_error in T. destruct T as (j & T).
    apply (N j). exists t. rewrite mem_in in M. auto. }
  destruct (set_data_ok body d2 None rows B) as (d' & E & Ej & Ef & Hin & Hout).
  - eapply Forall_impl; [|exact Rp]. intros l (H & _). exact H.
  - apply names_add. constructor.
  - apply in_map_iff in P. destruct P as (t & L & T). apply In_nth_error in T. destruct T as (j & T). rewrite (GN "p" j); [discriminate|].
    exists t. split; [exact T|]. split; [exact L|]. simpl. auto.
  - apply Forall_forall. intros row I. apply readable_add; [exact ND|]. intros q n. now apply V.
  - exists d'. split; [|split; [exact Ej|split]].
    + unfold load. rewrite load_comments by exact C0. rewrite load_job by exact Kj. unfold set_job_name. rewrite J, String.eqb_refl.
      rewrite job_gap by assumption. fold d1. rewrite load_comments by exact C1. rewrite load_plain by exact Tp.
      rewrite load_comments by exact C2. rewrite load_format by exact Kf. rewrite format_gap by (try exact C3; apply Fp).
      change (fmt d1) with (fmt d). rewrite F, Ft. fold d2.
      rewrite load_comments by exact C3. rewrite load_plain by exact Fp. rewrite load_comments by exact C4.
      rewrite load_data by exact Kd. rewrite E.
      assert (N : load_from body d' None = (d', None, None)).
      { rewrite <- (app_nil_r body). rewrite load_skips; [reflexivity|]. apply Forall_forall. intros l I. unfold neutral.
        destruct (is_comment l) eqn:El; [now apply comment_keyword|].
        assert (In l rows) by (rewrite <- B; apply filter_In; now rewrite El). rewrite Forall_forall in Rp. now apply Rp. }
      rewrite N. reflexivity.
    + intros q n H. apply Hin, GN, H.
    + intros q H. rewrite Hout by now apply GO. reflexivity.
Qed.
Lemma column_inj rows n xs ys : column rows n xs -> column rows n ys -> xs = ys.
Proof.
  intros F. revert ys. induction F as [|r x rows xs H F IH]; intros ys G; inversion G; subst; [reflexivity|]. f_equal; [congruence|now apply IH].
Qed.
Lemma names_column_dec toks q : (exists n, names_column toks q n) \/ (forall n, ~ names_column toks q n).
Proof.
  destruct (in_dec String.string_dec q known) as [K|K]; [|right; intros n (t & _ & _ & X); contradiction].
  destruct (in_dec String.string_dec q (List.map lower toks)) as [L|L].
  - left. apply in_map_iff in L. destruct L as (t & L & T). apply In_nth_error in T. destruct T as (j & T). exists j, t. auto.
  - right. intros n (t & E & <- & _). apply L. apply in_map. now apply nth_error_In in E.
Qed.
(** Reordering the columns of FORMAT line and rows alike changes nothing. *)
Definition reordered (s : list nat) (xs ys : list string) : Prop := Permutation s (seq 0 (List.length xs)) /\ ys = List.map (fun k => nth k xs "") s.
Lemma nth_error_reordered s xs ys n : reordered s xs ys -> nth_error ys n = match nth_error s n with Some k => nth_error xs k | None => None end.
Proof.
  intros (P & ->). destruct (nth_error s n) as [k|] eqn:E.
  - rewrite (map_nth_error _ _ _ E). symmetry. apply nth_error_nth'. apply nth_error_In in E.
    apply (Permutation_in _ P), in_seq in E. lia.
  - apply nth_error_None in E. apply nth_error_None. now rewrite map_length.
Qed.
Theorem C39_column_order l1 l2 title toks1 toks2 rows1 rows2 s d :
  layout l1 title toks1 rows1 -> layout l2 title toks2 rows2 ->
  reordered s toks1 toks2 -> Forall2 (fun r1 r2 => List.length (split r1) = List.length toks1 /\ reordered s (split r1) (split r2)) rows1 rows2 ->
  job d = "Unknown" -> fmt d = [] -> NoDup (List.map lower toks1) -> In "p" (List.map lower toks1) ->
  (forall row q n, In row rows1 -> names_column toks1 q n -> value row n <> None) ->
  exists d1 d2, load l1 d = (d1, Completed) /\ load l2 d = (d2, Completed) /\ job d1 = job d2 /\ forall q, cols d1 q = cols d2 q.
Proof.
  intros L1 L2 Rt Rr J F ND P V.
  destruct (C39_reads l1 title toks1 rows1 d L1 J F ND P V) as (d1 & E1 & J1 & I1 & O1).
  assert (PT : Permutation toks2 toks1).
  { destruct Rt as (Ps & ->). apply (Permutation_map (fun k => nth k toks1 "")) in Ps. apply (Permutation_trans Ps).
    replace (List.map (fun k => nth k toks1 "") (seq 0 (List.length toks1))) with toks1; [reflexivity|]. clear.
    induction toks1 as [|t r IH]; simpl; [reflexivity|]. f_equal. rewrite <- seq_shift, map_map. exact IH. }
  assert (ND2 : NoDup (List.map lower toks2)) by (apply (Permutation_NoDup (Permutation_map lower (Permutation_sym PT)) ND)).
  assert (TR : forall q n, names_column toks2 q n -> exists k, nth_error s n = Some k /\ names_column toks1 q k).
  { intros q n (t & E & Q). rewrite (nth_error_reordered s toks1 toks2 n Rt) in E. destruct (nth_error s n) as [k|]; [|discriminate]. exists k. split; [reflexivity|]. exists t. auto. }
  assert (VR : forall r1 r2 n k, List.length (split r1) = List.length toks1 /\ reordered s (split r1) (split r2) -> nth_error s n = Some k -> value r2 n = value r1 k).
  { intros r1 r2 n k (_ & X) E. unfold value. rewrite (nth_error_reordered s _ _ n X), E. reflexivity. }
  destruct (C39_reads l2 title toks2 rows2 d L2 J F ND2) as (d2 & E2 & J2 & I2 & O2).
  - apply (Permutation_in _ (Permutation_map lower (Permutation_sym PT)) P).
  - intros row q n I N. destruct (TR q n N) as (k & Ek & N1). clear - Rr I Ek N1 V VR.
    induction Rr as [|r1 r2 rows1 rows2 X Rr IH]; [destruct I|]. destruct I as [->|I].
    + rewrite (VR r1 row n k X Ek). apply (V r1 q k); [now left|exact N1].
    + apply IH; [|exact I]. intros row' q' n' I'. apply V. now right.
  - exists d1, d2. split; [exact E1|]. split; [exact E2|]. split; [congruence|]. intros q.
    destruct (names_column_dec toks2 q) as [(n & N)|N].
    + destruct (TR q n N) as (k & Ek & N1). destruct (I1 q k N1) as (xs & -> & X). destruct (I2 q n N) as (ys & -> & Y). f_equal.
      clear - Rr VR Ek X Y. unfold column in *. revert xs ys X Y. induction Rr as [|r1 r2 rows1 rows2 H Rr IH]; intros xs ys X Y; inversion X; inversion Y; subst; [reflexivity|].
      f_equal; [|now apply IH]. rewrite (VR r1 r2 n k H Ek) in H7. congruence.
    + rewrite O2 by exact N. apply O1. intros k (t & Et & Lt & Kt).
      assert (In k s).
      { destruct Rt as (Ps & _). apply (Permutation_in _ (Permutation_sym Ps)). apply in_seq. split; [lia|]. simpl. apply nth_error_Some. congruence. }
      apply In_nth_error in H. destruct H as (n & Hn). apply (N n). exists t. rewrite (nth_error_reordered s toks1 toks2 n Rt), Hn. auto.
Qed.

(** ** C40 *)
(** Comment lines and the case of keywords do not matter: two files with the same
    title, column names and rows are read alike. *)
Theorem C40_comments l1 l2 title toks rows d :
  layout l1 title toks rows -> layout l2 title toks rows -> job d = "Unknown" -> fmt d = [] -> NoDup (List.map lower toks) -> In "p" (List.map lower toks) ->
  (forall row q n, In row rows -> names_column toks q n -> value row n <> None) ->
  exists d1 d2, load l1 d = (d1, Completed) /\ load l2 d = (d2, Completed) /\ job d1 = job d2 /\ forall q, cols d1 q = cols d2 q.
Proof.
  intros L1 L2 J F ND P V.
  destruct (C39_reads l1 title toks rows d L1 J F ND P V) as (d1 & E1 & J1 & I1 & O1).
  destruct (C39_reads l2 title toks rows d L2 J F ND P V) as (d2 & E2 & J2 & I2 & O2).
  exists d1, d2. repeat split; try assumption; [congruence|]. intros q. destruct (names_column_dec toks q) as [(n & N)|N].
  - destruct (I1 q n N) as (xs & -> & X). destruct (I2 q n N) as (ys & -> & Y). f_equal. exact (column_inj _ _ _ _ X Y).
  - rewrite O1, O2 by exact N. reflexivity.
Qed.
(** DATA before FORMAT never completes. *)
Lemma error_kept lines d m : exists d' s m', load_from lines d (Some m) = (d', Some m', s).
Proof.
  revert d m; induction lines as [|l r IH]; intros d m; [simpl; eauto|]. cbn [load_from]. destruct (is_comment l); [apply IH|].
  destruct (String.eqb (keyword l) "job"); [destruct (set_job_name r d) as (d' & [s|]); [eauto|apply IH]|].
  destruct (String.eqb (keyword l) "format"); [destruct (set_data_format r d) as (d' & [s|]); [eauto|apply IH]|].
  destruct (String.eqb (keyword l) "data"); [|apply IH].
  unfold set_data. destruct (fmt d); [apply IH|]. destruct (has_key _ _); [|eauto]. destruct (table _ _); [apply IH|eauto].
Qed.
Theorem C40_data_before_format pre k rest d : Forall neutral pre -> keyword k = "data" -> fmt d = [] ->
  snd (load (pre ++ k :: rest) d) <> Completed /\
  (Forall neutral rest -> load (pre ++ k :: rest) d = (d, Failed E_format)).
Proof.
  intros N K F. unfold load. rewrite load_skips by exact N. rewrite load_data by exact K. unfold set_data. rewrite F. split.
  - destruct (error_kept rest d E_format) as (d' & s & m & ->). destruct s as [[]|]; discriminate.
  - intros R. rewrite <- (app_nil_r rest). rewrite load_skips by exact R. reflexivity.
Qed.
(** A format line without pressure: KeyError instead of the message meant for it. *)
Theorem C40_no_pressure_raises pre kf c fl mid k rest d :
  Forall neutral pre -> keyword kf = "format" -> comments c -> plain fl -> Forall neutral mid -> keyword k = "data" -> fmt d = [] ->
  ~ In "p" (List.map lower (split fl)) -> (exists t, In t (split fl) /\ In (lower t) documented) ->
  snd (load (pre ++ kf :: c ++ fl :: mid ++ k :: rest) d) = Raised "KeyError".
Proof.
  intros N Kf C Fp M K F NP (t & It & Kt). unfold load. rewrite load_skips by exact N. rewrite load_format by exact Kf.
  rewrite format_gap by (try exact C; apply Fp). rewrite load_comments by exact C. rewrite load_plain by exact Fp. rewrite load_skips by exact M.
  rewrite load_data by exact K. unfold set_data. cbn [fmt set_fmt]. rewrite F.
  destruct (has_key "p" (add_tokens 0 (split fl) [])) eqn:H.
  - exfalso. apply has_key_get in H. destruct H as (n & H). rewrite get_add_out in H by now left. discriminate.
  - revert H. destruct (add_tokens 0 (split fl) []) eqn:A; intros H; [exfalso|rewrite H; reflexivity].
    assert (X : forall i toks f, (exists u, In u toks /\ In (lower u) known) \/ f <> [] -> add_tokens i toks f <> []).
    { clear. intros i toks. revert i. induction toks as [|u toks IH]; intros i f H; simpl; [destruct H as [(v & [] & _)|H]; exact H|].
      apply IH. destruct (mem (lower u) known) eqn:M.
      - right. destruct f as [|(q, m) f]; simpl; [discriminate|]. destruct (String.eqb (lower u) q); discriminate.
      - destruct H as [(v & [->|I] & Kv)|H]; [apply mem_in in Kv; congruence|left; eauto|now right]. }
    apply (X 0 (split fl) []); [left; eauto|exact A].
Qed.
(** The accepted abbreviations sigp, sigv, ... are dropped: the uncertainties
    stay what they were. *)
Theorem C40_alias_dropped_refuted lines title toks rows d :
  layout lines title toks rows -> job d = "Unknown" -> fmt d = [] -> NoDup (List.map lower toks) -> In "p" (List.map lower toks) ->
  (forall row q n, In row rows -> names_column toks q n -> value row n <> None) ->
  In "sigp" (List.map lower toks) -> ~ In "sigmap" (List.map lower toks) ->
  exists d', load lines d = (d', Completed) /\ sigma_p d' = sigma_p d.
Proof.
  intros L J F ND P V S N. destruct (C39_reads lines title toks rows d L J F ND P V) as (d' & E & _ & _ & O). exists d'. split; [exact E|].
  apply O. intros n (t & X & Lt & _). apply N. apply in_map_iff. exists t. split; [exact Lt|now apply nth_error_In in X].
Qed.
(** A title whose first word is a keyword is obeyed as that keyword: here FORMAT
    is looked up in the lines after the title. *)
Theorem C40_keyword_title_refuted kj tl kf fl rest d :
  keyword kj = "job" -> keyword tl = "format" -> is_comment kf = false -> keyword kf = "format" -> plain fl ->
  job d = "Unknown" -> chomp tl <> "Unknown" -> strip (chomp tl) <> "" -> starts_with "#" (strip (chomp tl)) = false ->
  load_from (kj :: tl :: kf :: fl :: rest) d None =
  load_from rest (set_fmt (set_job d (chomp tl)) (add_tokens 0 (split fl) (add_tokens 0 (split kf) (fmt d)))) None.
Proof.
  intros Kj Kt Ck Kf F J U S H. rewrite load_job by exact Kj. unfold set_job_name. rewrite J, String.eqb_refl.
  pose proof (job_gap [] tl (kf :: fl :: rest) d (Forall_nil _) U S H) as X. cbn [app] in X. rewrite X. clear X.
  rewrite load_format by exact Kt. pose proof (format_gap [] kf (fl :: rest) (set_job d (chomp tl)) (Forall_nil _) Ck) as X. cbn [app] in X. rewrite X. clear X.
  rewrite load_format by exact Kf.
  pose proof (format_gap [] fl rest (set_fmt (set_job d (chomp tl)) (add_tokens 0 (split kf) (fmt (set_job d (chomp tl))))) (Forall_nil _) (proj1 F)) as X.
  cbn [app] in X. rewrite X. rewrite load_plain by exact F. reflexivity.
Qed.
(** A title such as "Data of Angel et al." makes any file unreadable. *)
Theorem C40_data_title_refuted c0 kj tl rest d :
  Forall neutral c0 -> keyword kj = "job" -> keyword tl = "data" -> job d = "Unknown" -> fmt d = [] ->
  chomp tl <> "Unknown" -> strip (chomp tl) <> "" -> starts_with "#" (strip (chomp tl)) = false ->
  snd (load (c0 ++ kj :: tl :: rest) d) <> Completed.
Proof.
  intros N Kj Kt J F U S H. unfold load. rewrite load_skips by exact N. rewrite load_job by exact Kj. unfold set_job_name. rewrite J, String.eqb_refl.
  pose proof (job_gap [] tl rest d (Forall_nil _) U S H) as X. cbn [app] in X. rewrite X.
  rewrite load_data by exact Kt. unfold set_data. cbn [fmt set_job]. rewrite F.
  destruct (error_kept rest (set_job d (chomp tl)) E_format) as (d' & s & m & ->). destruct s as [[]|]; discriminate.
Qed.
(** Only a title equal to the placeholder name makes the reader loop for ever,
    and a blank line of spaces before the title makes it raise. *)
Theorem C40_endless_iff rest d : snd (set_job_name rest d) = Some Hang <->
  job d = "Unknown" /\ exists c l r, rest = c ++ l :: r /\ Forall gap c /\ chomp l = "Unknown".
Proof.
  unfold set_job_name. destruct (String.eqb_spec (job d) "Unknown") as [E|E]; [|split; [discriminate|intros (X & _); contradiction]].
  split.
  - intros H. split; [exact E|]. clear E. revert H. induction rest as [|l r IH]; cbn [job_from]; [discriminate|].
    assert (X : forall s, gap l -> snd (job_from r d) = Some s -> s = Hang -> exists c l0 r0, l :: r = c ++ l0 :: r0 /\ Forall gap c /\ chomp l0 = "Unknown").
    { intros s G H ->. destruct (IH H) as (c & l0 & r0 & -> & F & U). exists (l :: c), l0, r0. split; [reflexivity|]. split; [now constructor|exact U]. }
    destruct (chomp l) as [|a t] eqn:C; [intros H; apply (X Hang); [left; exact C|exact H|reflexivity]|].
    destruct (strip (String a t)) as [|b u] eqn:T; [discriminate|]. destruct (starts_with "#" (String b u)) eqn:W.
    + intros H. apply (X Hang); [right; rewrite C, T; exact W|exact H|reflexivity].
    + destruct (String.eqb_spec (String a t) "Unknown") as [U|U]; [|discriminate]. intros _. exists [], l, r. split; [reflexivity|]. split; [constructor|congruence].
  - intros (_ & c & l & r & -> & F & U). induction F as [|x c G F IH]; cbn [app job_from].
    + rewrite U. reflexivity.
    + destruct G as [->|G]; [exact IH|]. destruct (chomp x) as [|a s]; [discriminate|]. destruct (strip (String a s)) as [|b t]; [discriminate|].
      rewrite G. exact IH.
Qed.

(** ** C38, EoS reader *)
(** Once a title has been read, no later reader changes it. *)
Lemma store_columns_job k f rows d : job (store_columns k f rows d) = job d. Proof. apply store_job. Qed.
Lemma load_from_job lines d e : job d <> "Unknown" -> job (fst (fst (load_from lines d e))) = job d.
Proof.
  revert d e; induction lines as [|l r IH]; intros d e H; [reflexivity|]. cbn [load_from]. destruct (is_comment l); [now apply IH|].
  destruct (String.eqb (keyword l) "job").
  { unfold set_job_name. apply String.eqb_neq in H as H'. rewrite H'. now apply IH. }
  destruct (String.eqb (keyword l) "format").
  { assert (X : job (fst (set_data_format r d)) = job d).
    { clear. induction r as [|l r IH]; simpl; [reflexivity|]. destruct (is_comment l); [exact IH|reflexivity]. }
    destruct (set_data_format r d) as (d' & [s|]); simpl in *; [exact X|]. rewrite IH by congruence. exact X. }
  destruct (String.eqb (keyword l) "data"); [|now apply IH].
  unfold set_data. destruct (fmt d) as [|p f]; [now apply IH|]. destruct (has_key "p" (p :: f)); [|reflexivity].
  destruct (table (p :: f) r) as [rows|x]; [|reflexivity]. rewrite IH; rewrite store_job; auto.
Qed.
Theorem C38_eos_first_title_stays_refuted files d : job d <> "Unknown" -> job (readers files d) = job d.
Proof.
  revert d; induction files as [|f files IH]; intros d H; [reflexivity|]. cbn [readers fold_left]. fold (readers files (fst (load f d))).
  assert (J : job (fst (load f d)) = job d).
  { unfold load. pose proof (load_from_job f d None H) as X. destruct (load_from f d None) as ((d' & e) & s). exact X. }
  rewrite IH; congruence.
Qed.
(** Column names stay registered: a later file with DATA but no FORMAT is read
    with the columns of the earlier file instead of being refused. *)
Theorem C38_eos_stale_format_refuted pre k body rows d :
  Forall neutral pre -> keyword k = "data" -> payload body = rows -> Forall plain rows ->
  NoDup (names (fmt d)) -> get "p" (fmt d) <> None -> Forall (readable (fmt d)) rows ->
  exists d', load (pre ++ k :: body) d = (d', Completed) /\
    forall q n, get q (fmt d) = Some n -> exists xs, cols d' q = Some xs /\ column rows n xs.
Proof.
  intros N K B Rp ND P H. destruct (set_data_ok body d None rows B) as (d' & E & _ & _ & Hin & _); try assumption.
  { eapply Forall_impl; [|exact Rp]. intros l (X & _). exact X. }
  exists d'. split; [|exact Hin]. unfold load. rewrite load_skips by exact N. rewrite load_data by exact K. rewrite E.
  rewrite <- (app_nil_r body). rewrite load_skips; [reflexivity|]. apply Forall_forall. intros l I. unfold neutral.
  destruct (is_comment l) eqn:El; [now apply comment_keyword|].
  assert (In l rows) by (rewrite <- B; apply filter_In; now rewrite El). rewrite Forall_forall in Rp. now apply Rp.
Qed.
(** A file without a volume column reports the volumes of the file read before. *)
Theorem C38_eos_stale_column_refuted lines title toks rows d q :
  layout lines title toks rows -> job d = "Unknown" -> fmt d = [] -> NoDup (List.map lower toks) -> In "p" (List.map lower toks) ->
  (forall row q n, In row rows -> names_column toks q n -> value row n <> None) ->
  ~ In q (List.map lower toks) -> cols (fst (load lines d)) q = cols d q.
Proof.
  intros L J F ND P V N. destruct (C39_reads lines title toks rows d L J F ND P V) as (d' & E & _ & _ & O). rewrite E. apply O.
  intros n (t & X & Lt & _). apply N. apply in_map_iff. exists t. split; [exact Lt|now apply nth_error_In in X].
Qed.

(** ** A concrete file *)
Definition quartz : list string :=
  ["# Quartz"; "job"; "Quartz, Angel et al."; "format"; "v SigmaV P sigp"; "data"; "112.981 0.002 0.0001 0.01"; "# dac"; "111.725 0.005 0.429 0.01"].
Definition quartz2 : list string :=
  ["JOB"; ""; "Quartz, Angel et al."; "FORMAT"; "P v SigmaV sigp"; "DATA"; "0.0001 112.981 0.002 0.01"; "0.429 111.725 0.005 0.01"].
Example C39_instance :
  layout quartz "Quartz, Angel et al." ["v"; "SigmaV"; "P"; "sigp"] ["112.981 0.002 0.0001 0.01"; "111.725 0.005 0.429 0.01"] /\
  layout quartz2 "Quartz, Angel et al." ["P"; "v"; "SigmaV"; "sigp"] ["0.0001 112.981 0.002 0.01"; "0.429 111.725 0.005 0.01"] /\
  reordered [2; 0; 1; 3] ["v"; "SigmaV"; "P"; "sigp"] ["P"; "v"; "SigmaV"; "sigp"] /\
  Forall2 (fun r1 r2 => List.length (split r1) = 4%nat /\ reordered [2; 0; 1; 3] (split r1) (split r2))
    ["112.981 0.002 0.0001 0.01"; "111.725 0.005 0.429 0.01"] ["0.0001 112.981 0.002 0.01"; "0.429 111.725 0.005 0.01"] /\
  NoDup (List.map lower ["v"; "SigmaV"; "P"; "sigp"]) /\
  forall row q n, In row ["112.981 0.002 0.0001 0.01"; "111.725 0.005 0.429 0.01"] -> names_column ["v"; "SigmaV"; "P"; "sigp"] q n -> value row n <> None.
Proof.
  assert (PM : Permutation [2; 0; 1; 3] (seq 0 4)).
  { simpl. apply Permutation_sym. apply perm_trans with [0; 2; 1; 3]; [apply perm_skip, perm_swap|apply perm_swap]. }
  assert (NK : forall l, is_comment l = false -> existsb (String.eqb (keyword l)) keywords = false -> plain l).
  { intros l C K. split; [exact C|]. intros I. assert (X : existsb (String.eqb (keyword l)) keywords = true); [|congruence].
    apply existsb_exists. exists (keyword l). split; [exact I|apply String.eqb_refl]. }
  split; [|split; [|split; [|split; [|split]]]].
  - exists ["# Quartz"], "job", [], "Quartz, Angel et al.", [], "format", [], "v SigmaV P sigp", [], "data", ["112.981 0.002 0.0001 0.01"; "# dac"; "111.725 0.005 0.429 0.01"].
    unfold comments. repeat match goal with |- _ /\ _ => split end; try reflexivity; try discriminate; try (apply NK; reflexivity);
    repeat (apply Forall_cons; [try reflexivity; apply NK; reflexivity|]); apply Forall_nil.
  - exists [], "JOB", [""], "Quartz, Angel et al.", [], "FORMAT", [], "P v SigmaV sigp", [], "DATA", ["0.0001 112.981 0.002 0.01"; "0.429 111.725 0.005 0.01"].
    unfold comments. repeat match goal with |- _ /\ _ => split end; try reflexivity; try discriminate; try (apply NK; reflexivity);
    repeat (apply Forall_cons; [try reflexivity; try (left; reflexivity); apply NK; reflexivity|]); apply Forall_nil.
  - split; [exact PM|reflexivity].
  - repeat (apply Forall2_cons; [split; [reflexivity|split; [exact PM|reflexivity]]|]). apply Forall2_nil.
  - simpl. repeat apply NoDup_cons; try apply NoDup_nil; simpl; intuition discriminate.
  - intros row q n I (t & E & _). assert (n < 4) by (apply (proj1 (nth_error_Some ["v"; "SigmaV"; "P"; "sigp"] n)); congruence).
    destruct I as [<-|[<-|[]]]; destruct n as [|[|[|[|n]]]]; try lia; vm_compute; discriminate.
Qed.
Example C40_instance : snd (load ["data"; "1 2"] class_data) = Failed E_format /\
  snd (load ["format"; "V A"; "data"; "1 2"] class_data) = Raised "KeyError" /\
  snd (load ["job"; "Unknown"] class_data) = Endless.
Proof. repeat split. Qed.

Print Assumptions C39_reads.
Print Assumptions C39_column_order.
Print Assumptions C40_comments.
Print Assumptions C40_data_before_format.
Print Assumptions C40_no_pressure_raises.
Print Assumptions C40_alias_dropped_refuted.
Print Assumptions C40_data_title_refuted.
Print Assumptions C40_keyword_title_refuted.
Print Assumptions C40_endless_iff.
Print Assumptions C38_eos_first_title_stays_refuted.
Print Assumptions C38_eos_stale_format_refuted.
Print Assumptions C38_eos_stale_column_refuted.
