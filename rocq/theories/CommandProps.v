(** C85: command names. *)
From Coq Require Import String Ascii List Bool Arith Lia Sorted Permutation.
From Verif Require Import CommandModel CommandSpec CommandProofs.
Import ListNotations.
Open Scope string_scope.
Open Scope list_scope.
Open Scope nat_scope.

Lemma sapp_nil s : s +++ "" = s.
Proof. induction s as [|c s IH]; [reflexivity|]. change (String c (s +++ "") = String c s). now rewrite IH. Qed.
Lemma sapp_assoc a b c : (a +++ b) +++ c = a +++ (b +++ c).
Proof. induction a as [|x a IH]; [reflexivity|]. change (String x ((a +++ b) +++ c) = String x (a +++ (b +++ c))). now rewrite IH. Qed.
Lemma join_concat sep l : join sep l = String.concat sep l.
Proof. induction l as [|x [|y l] IH]; [reflexivity|reflexivity|]. change (x +++ sep +++ join sep (y :: l) = x +++ sep +++ String.concat sep (y :: l)). now rewrite IH. Qed.
Lemma letters_length s : List.length (letters s) = String.length s.
Proof. induction s; cbn; [reflexivity|]. now f_equal. Qed.
Lemma registered_iff typed names : existsb (String.eqb typed) names = true <-> In typed names.
Proof.
  rewrite existsb_exists. split; [intros (x & I & E); apply String.eqb_eq in E; now subst|]. intros I. exists typed. now rewrite String.eqb_refl.
Qed.
Lemma sorted_nil_iff l : sorted l = [] <-> l = [].
Proof. split; intros H; [|now rewrite H]. apply Permutation_nil. rewrite <- H at 1. symmetry. apply sorted_perm. Qed.
Lemma shown banner names typed : ~ In typed names -> get_command banner names typed = Fails banner (message typed (sorted (suggestions names typed))).
Proof.
  intros N. unfold get_command. destruct (existsb (String.eqb typed) names) eqn:E; [apply registered_iff in E; contradiction|].
  unfold message. destruct (suggestions names typed) as [|x l]; [cbn [sorted fold_right]|].
  - reflexivity.
  - destruct (sorted (x :: l)) as [|y r] eqn:Q; [exfalso; pose proof (proj1 (sorted_nil_iff _) Q) as Q'; discriminate Q'|].
    rewrite join_concat. reflexivity.
Qed.
Lemma suggestions_in names typed x : In x (suggestions names typed) ->
  In x names /\ (at_least_half (ratio (letters x) (letters typed)) = true \/ String.prefix typed x = true).
Proof.
  unfold suggestions. destruct (close_matches typed (sorted names)) as [|y l] eqn:E.
  - intros H. apply firstn_in in H. apply filter_In in H. rewrite !sorted_in in H. tauto.
  - rewrite <- E. intros H. apply close_in_sorted in H. tauto.
Qed.
Lemma half_similar x typed : x <> "" \/ typed <> "" -> at_least_half (ratio (letters x) (letters typed)) = true -> similar x typed.
Proof.
  intros NE H. destruct (matched_common (popular (letters typed)) (S (List.length (letters x))) (letters x) (letters typed)) as (w & L & A & B).
  exists w. split; [exact A|]. split; [exact B|]. unfold at_least_half, ratio in H. cbn [fst snd] in H. rewrite <- L, !letters_length in H.
  destruct (Nat.eqb_spec (String.length x + String.length typed) 0) as [Z|Z].
  - destruct NE as [NE|NE]; destruct x, typed; cbn in Z; congruence || lia.
  - apply Nat.leb_le in H. lia.
Qed.
Lemma prefix_begins typed x : String.prefix typed x = true -> begins typed x.
Proof.
  revert x. induction typed as [|c t IH]; intros x H; [exists x; reflexivity|]. destruct x as [|d x]; [discriminate|]. cbn [String.prefix] in H.
  destruct (ascii_dec c d) as [->|]; [|discriminate]. destruct (IH x H) as [r ->]. exists r. reflexivity.
Qed.
Lemma begins_prefix typed x : begins typed x -> String.prefix typed x = true.
Proof. intros [r ->]. induction typed as [|c t IH]; [now destruct r|]. cbn [String.append String.prefix]. destruct (ascii_dec c c); [exact IH|congruence]. Qed.
Lemma suggestions_length names typed : List.length (suggestions names typed) <= 3.
Proof. unfold suggestions. destruct (close_matches typed (sorted names)) eqn:E; [apply firstn_le|rewrite <- E; apply close_length]. Qed.
Lemma suggestions_nodup names typed : NoDup names -> NoDup (suggestions names typed).
Proof.
  intros H. assert (K : NoDup (sorted names)) by (eapply Permutation_NoDup; [apply sorted_perm|exact H]).
  unfold suggestions. destruct (close_matches typed (sorted names)) eqn:E; [|rewrite <- E; now apply close_nodup].
  apply NoDup_firstn, NoDup_filter. eapply Permutation_NoDup; [apply sorted_perm|exact K].
Qed.

(** A name runs its command if and only if it is registered, to the letter. *)
Theorem C85_registered : forall banner names typed,
  (exists c, get_command banner names typed = Command c) <-> In typed names.
Proof.
  intros banner names typed. split.
  - intros [c H]. destruct (in_dec string_dec typed names) as [I|I]; [exact I|]. rewrite (shown banner names typed I) in H. discriminate.
  - intros I. exists typed. unfold get_command. now rewrite (proj2 (registered_iff typed names) I).
Qed.
Theorem C85_that_one : forall banner names typed c, get_command banner names typed = Command c -> c = typed.
Proof. intros banner names typed c. unfold get_command. destruct (existsb _ _); [now intros [= ->]|]. destruct (suggestions names typed); discriminate. Qed.

(** Anything else fails with the list of at most three registered names, in
    alphabetical order, that resemble what was typed. *)
Theorem C85_unknown : forall banner names typed, NoDup names -> ~ In typed names ->
  exists listed, get_command banner names typed = Fails banner (message typed listed) /\
    List.length listed <= 3 /\ NoDup listed /\ StronglySorted (fun x y => String.leb x y = true) listed /\
    forall x, In x listed -> In x names /\ (similar x typed \/ begins typed x).
Proof.
  intros banner names typed D N. exists (sorted (suggestions names typed)). split; [now apply shown|].
  split; [rewrite <- (Permutation_length (sorted_perm _)); apply suggestions_length|].
  split; [eapply Permutation_NoDup; [apply sorted_perm|]; now apply suggestions_nodup|]. split; [apply sorted_sorted|].
  intros x I. rewrite sorted_in in I. apply suggestions_in in I. destruct I as [I [H|H]]; (split; [exact I|]).
  - left. apply half_similar; [|exact H]. destruct (string_dec x ""), (string_dec typed ""); subst; tauto.
  - right. now apply prefix_begins.
Qed.

(** Who shares half with what was typed is listed, or three that are not worse. *)
Lemma piece_half x typed : String.length typed < 200 -> shares_piece x typed -> at_least_half (ratio (letters x) (letters typed)) = true.
Proof.
  intros T (u & a & b & c & d & X & Y & L). unfold at_least_half, ratio. cbn [fst snd]. rewrite !letters_length.
  destruct (Nat.eqb_spec (String.length x + String.length typed) 0); [reflexivity|]. apply Nat.leb_le.
  assert (M : List.length u <= matched (popular (letters typed)) (S (String.length x)) (letters x) (letters typed)); [|lia].
  unfold chars in X, Y. fold (letters x) in X. fold (letters typed) in Y. apply (matched_block _ _ _ _ (List.length a) (List.length c)).
  - intros y. unfold popular. rewrite letters_length. destruct (Nat.leb_spec 200 (String.length typed)); [lia|reflexivity].
  - rewrite X, Y. split; [rewrite !app_length; lia|]. split; [rewrite !app_length; lia|]. intros m M. unfold same_at.
    rewrite (nth_error_app2 a), (nth_error_app2 c) by lia. replace (List.length a + m - List.length a) with m by lia. replace (List.length c + m - List.length c) with m by lia.
    rewrite (nth_error_app1 u b), (nth_error_app1 u d) by lia. destruct (nth_error u m) eqn:E; [apply Ascii.eqb_refl|]. apply nth_error_None in E. lia.
Qed.
Lemma suggestions_complete names typed x : In x names -> at_least_half (ratio (letters x) (letters typed)) = true ->
  In x (suggestions names typed) \/ List.length (suggestions names typed) = 3 /\ forall y, In y (suggestions names typed) -> at_least_half (ratio (letters y) (letters typed)) = true.
Proof.
  intros I H. apply (sorted_in names) in I. pose proof (close_complete typed (sorted names) x I H) as K. unfold suggestions.
  destruct (close_matches typed (sorted names)) as [|z l] eqn:E.
  - destruct K as [[]|[K _]]. discriminate.
  - rewrite <- E in *. destruct K as [K|[K _]]; [now left|right]. split; [exact K|]. intros y Y. apply close_in in Y. tauto.
Qed.
Theorem C85_found : forall banner names typed x, NoDup names -> ~ In typed names -> String.length typed < 200 ->
  In x names -> shares_piece x typed ->
  exists listed, get_command banner names typed = Fails banner (message typed listed) /\
    (In x listed \/ List.length listed = 3 /\ forall y, In y listed -> similar y typed).
Proof.
  intros banner names typed x D N T I H. exists (sorted (suggestions names typed)). split; [now apply shown|].
  destruct (suggestions_complete names typed x I (piece_half x typed T H)) as [K|[K K']]; [left; now apply sorted_in|right].
  split; [now rewrite <- (Permutation_length (sorted_perm _))|]. intros y Y. rewrite sorted_in in Y. apply half_similar; [|now apply K'].
  apply suggestions_in in Y. destruct Y as [Y _]. destruct (string_dec y ""), (string_dec typed ""); subst; tauto.
Qed.
(** Hence with at most three similar names registered, it is always listed. *)
Theorem C85_found_few : forall banner names typed x, NoDup names -> ~ In typed names -> String.length typed < 200 ->
  In x names -> shares_piece x typed -> (forall l, NoDup l -> (forall y, In y l -> In y names /\ similar y typed) -> List.length l <= 3) ->
  exists listed, get_command banner names typed = Fails banner (message typed listed) /\ In x listed.
Proof.
  intros banner names typed x D N T I H Few. exists (sorted (suggestions names typed)). split; [now apply shown|]. rewrite sorted_in.
  destruct (in_dec string_dec x (suggestions names typed)) as [K|K]; [exact K|exfalso].
  assert (Q : forall y, In y names -> y <> "" \/ typed <> "").
  { intros y Y. destruct (string_dec y ""), (string_dec typed ""); subst; tauto. }
  destruct (suggestions_complete names typed x I (piece_half x typed T H)) as [|[L K']]; [contradiction|].
  specialize (Few (x :: suggestions names typed)). cbn [List.length] in Few. rewrite L in Few. apply (Nat.nle_succ_diag_l 3), Few.
  - constructor; [exact K|now apply suggestions_nodup].
  - intros y [<-|Y]; [split; [exact I|]|pose proof (suggestions_in _ _ _ Y) as [Y' _]; split; [exact Y'|]].
    + apply half_similar; [now apply Q|]. now apply piece_half.
    + apply half_similar; [now apply Q|]. now apply K'.
Qed.

(** Nothing is listed for a word that has no character in common with any name. *)
Lemma subseq_in {A} (w l : list A) x : subseq w l -> In x w -> In x l.
Proof. induction 1; intros I; [destruct I|right; auto|destruct I as [->|I]; [now left|right; auto]]. Qed.
Theorem C85_nothing : forall banner names typed, typed <> "" ->
  (forall x c, In x names -> In c (chars x) -> ~ In c (chars typed)) ->
  get_command banner names typed = Fails banner (message typed []).
Proof.
  intros banner names typed NE H.
  assert (N : ~ In typed names).
  { intros I. destruct typed as [|c t]; [congruence|]. apply (H _ c I); now left. }
  rewrite (shown _ _ _ N). do 2 f_equal. apply sorted_nil_iff. destruct (suggestions names typed) as [|x l] eqn:E; [reflexivity|exfalso].
  assert (I : In x (suggestions names typed)) by (rewrite E; now left). apply suggestions_in in I. destruct I as [I [K|K]].
  - apply half_similar in K; [|now right]. destruct K as (w & A & B & L). destruct w as [|c w].
    + destruct typed; [congruence|]. cbn in L. lia.
    + apply (H x c I); [apply (subseq_in _ _ _ A)|apply (subseq_in _ _ _ B)]; now left.
  - apply prefix_begins in K. destruct K as [r ->]. destruct typed as [|c t]; [congruence|]. apply (H _ c I); now left.
Qed.
(** Nor is a name less than a third as long as the word. *)
Theorem C85_long : forall banner names typed x, ~ In typed names -> 3 * String.length x < String.length typed ->
  exists listed, get_command banner names typed = Fails banner (message typed listed) /\ ~ In x listed.
Proof.
  intros banner names typed x N L. exists (sorted (suggestions names typed)). split; [now apply shown|]. rewrite sorted_in. intros I.
  apply suggestions_in in I. destruct I as [I [K|K]].
  - apply half_similar in K; [|right; intros ->; cbn in L; lia]. destruct K as (w & A & B & M). apply subseq_length in A. unfold chars in A.
    fold (letters x) in A. rewrite letters_length in A. lia.
  - apply prefix_begins in K. destruct K as [r ->]. assert (Q : String.length (typed +++ r) = String.length typed + String.length r) by (clear; induction typed; cbn; auto).
    lia.
Qed.
(** Without similar names, the first three that begin with the word are shown. *)
Lemma sublist_sorted {A} (le : A -> A -> Prop) l m : StronglySorted le (l ++ m) -> StronglySorted le l /\ forall x y, In x l -> In y m -> le x y.
Proof.
  induction l as [|x l IH]; cbn [app]; intros H; [split; [constructor|intros ? ? []]|]. inversion H as [|? ? H1 H2]; subst. destruct (IH H1) as [IA IB].
  rewrite Forall_app in H2. split; [constructor; tauto|]. intros z y [<-|I] J; [|now apply IB]. destruct H2 as [_ H2]. rewrite Forall_forall in H2. now apply H2.
Qed.
Lemma filter_sorted {A} (le : A -> A -> Prop) f l : StronglySorted le l -> StronglySorted le (filter f l).
Proof.
  induction 1 as [|x l H IH F]; cbn [filter]; [constructor|]. destruct (f x); [|exact IH]. constructor; [exact IH|]. rewrite Forall_forall in *. intros y Y.
  apply filter_In in Y. now apply F.
Qed.
Theorem C85_begins : forall banner names typed, ~ In typed names -> (forall x, In x names -> ~ similar x typed) ->
  exists listed, get_command banner names typed = Fails banner (message typed listed) /\
    (forall x, In x listed -> In x names /\ begins typed x) /\
    forall x, In x names -> begins typed x -> In x listed \/ List.length listed = 3 /\ forall y, In y listed -> String.leb y x = true.
Proof.
  intros banner names typed N H. exists (sorted (suggestions names typed)). split; [now apply shown|].
  assert (E : close_matches typed (sorted names) = []).
  { destruct (close_matches typed (sorted names)) as [|x l] eqn:E; [reflexivity|exfalso]. assert (I : In x (close_matches typed (sorted names))) by (rewrite E; now left).
    apply close_in_sorted in I. destruct I as [I K]. apply (H x I), half_similar; [|exact K].
    destruct (string_dec x ""), (string_dec typed ""); subst; tauto. }
  unfold suggestions. rewrite E, (sorted_id (sorted names)) by apply sorted_sorted. set (l := filter _ (sorted names)).
  assert (IL : forall x, In x l <-> In x names /\ begins typed x).
  { intros x. unfold l. rewrite filter_In, sorted_in. split; intros [A B]; (split; [exact A|]); [now apply prefix_begins|now apply begins_prefix]. }
  assert (SL : StronglySorted name_le l) by (apply filter_sorted, sorted_sorted). clearbody l.
  rewrite <- (firstn_skipn 3 l) in SL. apply sublist_sorted in SL. destruct SL as [S1 S2]. rewrite (sorted_id (firstn 3 l)) by exact S1. split.
  - intros x X. apply IL. now apply firstn_in in X.
  - intros x X B. assert (Q : In x l) by now apply IL. rewrite <- (firstn_skipn 3 l) in Q. apply in_app_or in Q. destruct Q as [Q|Q]; [now left|right].
    split; [|intros y Y; now apply S2]. rewrite firstn_length. apply Nat.min_l. destruct (Nat.le_gt_cases 3 (List.length l)); [assumption|].
    rewrite skipn_all2 in Q by lia. destruct Q.
Qed.

(** * The commands of Quantas *)
Definition groups : list (list string) := [quantas_commands; export_commands; inpgen_commands].
Definition all_ascii : list ascii := map ascii_of_nat (seq 0 256).
Lemma all_ascii_in c : In c all_ascii.
Proof. unfold all_ascii. rewrite <- (ascii_nat_embedding c). apply in_map, in_seq. split; [lia|]. apply nat_ascii_bounded. Qed.
Fixpoint splits (s : word) : list (word * word) := ([], s) :: match s with [] => [] | c :: r => map (fun p => (c :: fst p, snd p)) (splits r) end.
Lemma splits_in u v : In (u, v) (splits (u ++ v)).
Proof. induction u as [|c u IH]; cbn [app splits]; [destruct v; now left|]. right. apply in_map_iff. exists (u, v). split; [reflexivity|exact IH]. Qed.
Definition edits (r : word) : list word := flat_map (fun p : word * word => let (u, v) := p in
  map (fun c => u ++ c :: v) all_ascii ++
  match v with
  | [] => []
  | x :: v' => (u ++ v') :: map (fun c => u ++ c :: v') all_ascii ++ match v' with [] => [] | y :: v'' => [u ++ y :: x :: v''] end
  end) (splits r).
Lemma edits_in r w : one_edit r w -> In w (edits r).
Proof.
  intros [u c v|u c v|u c d v|u c d v]; apply in_flat_map; eexists; (split; [apply splits_in|]); apply in_or_app.
  - left. apply in_map_iff. exists c. split; [reflexivity|apply all_ascii_in].
  - right. now left.
  - right. right. apply in_or_app. left. apply in_map_iff. exists d. split; [reflexivity|apply all_ascii_in].
  - right. right. apply in_or_app. right. now left.
Qed.
Definition typos_listed (names : list string) : bool :=
  forallb (fun r => forallb (fun w => let s := string_of_list_ascii w in existsb (String.eqb s) names || existsb (String.eqb r) (suggestions names s)) (edits (letters r))) names.
Lemma typos_checked : forallb typos_listed groups = true.
Proof. vm_compute. reflexivity. Qed.
(** Whoever mistypes one character of a command (inserts, omits, replaces one, or
    exchanges two) is shown that command, whatever the byte. *)
Theorem C85_typo : forall banner names name typed, In names groups -> In name names ->
  one_edit (chars name) (chars typed) -> ~ In typed names ->
  exists listed, get_command banner names typed = Fails banner (message typed listed) /\ In name listed.
Proof.
  intros banner names name typed G I E N. exists (sorted (suggestions names typed)). split; [now apply shown|]. rewrite sorted_in.
  pose proof typos_checked as T. rewrite forallb_forall in T. specialize (T names G). unfold typos_listed in T. rewrite forallb_forall in T.
  specialize (T name I). rewrite forallb_forall in T. specialize (T _ (edits_in _ _ E)). cbv zeta in T. unfold chars in T. rewrite string_of_list_ascii_of_string in T.
  apply orb_true_iff in T. destruct T as [T|T]; [apply registered_iff in T; contradiction|]. now apply registered_iff in T.
Qed.
(** Whoever types the beginning of one is shown it. *)
Lemma begins_checked : forallb (fun names => forallb (fun r => forallb (fun n => let s := string_of_list_ascii (firstn (S n) (letters r)) in
  existsb (String.eqb s) names || existsb (String.eqb r) (suggestions names s)) (seq 0 (String.length r))) names) groups = true.
Proof. vm_compute. reflexivity. Qed.
Lemma letters_app x y : letters (x +++ y) = letters x ++ letters y.
Proof. induction x as [|c x IH]; [reflexivity|]. change (c :: letters (x +++ y) = c :: letters x ++ letters y). now rewrite IH. Qed.
Theorem C85_beginning : forall banner names name typed, In names groups -> In name names -> begins typed name -> typed <> "" -> ~ In typed names ->
  exists listed, get_command banner names typed = Fails banner (message typed listed) /\ In name listed.
Proof.
  intros banner names name typed G I [r ->] NE N. exists (sorted (suggestions names typed)). split; [now apply shown|]. rewrite sorted_in.
  pose proof begins_checked as T. rewrite forallb_forall in T. specialize (T names G). cbv beta in T. rewrite forallb_forall in T.
  specialize (T (typed +++ r) I). cbv beta in T. rewrite forallb_forall in T. specialize (T (pred (String.length typed))). cbv zeta in T.
  assert (Q : String.length typed <> 0) by (destruct typed; cbn; congruence).
  assert (P : string_of_list_ascii (firstn (S (pred (String.length typed))) (letters (typed +++ r))) = typed).
  { rewrite Nat.succ_pred by exact Q. rewrite letters_app, firstn_app, <- letters_length, firstn_all, Nat.sub_diag, firstn_O, app_nil_r.
    apply string_of_list_ascii_of_string. }
  rewrite P in T. specialize (T ltac:(rewrite in_seq, <- (letters_length (typed +++ r)), letters_app, app_length, !letters_length; lia)).
  apply orb_true_iff in T. destruct T as [T|T]; [apply registered_iff in T; contradiction|]. now apply registered_iff in T.
Qed.

(** The tutorial's [quantas seismic] and [quantas export seismic]
    (docs/source/tutorials/seismic_tutorial.rst:30, 198) are no commands. *)
Theorem C85_seismic_refuted : forall banner,
  get_command banner quantas_commands "seismic" = Fails banner (message "seismic" ["soec"]) /\
  get_command banner export_commands "seismic" = Fails banner (message "seismic" ["soec"]).
Proof. intros banner. split; vm_compute; reflexivity. Qed.
(** Capitals are other characters: nothing is suggested for [QHA]. *)
Theorem C85_capitals_refuted : forall banner, get_command banner quantas_commands "QHA" = Fails banner (message "QHA" []).
Proof. intros banner. apply C85_nothing; [discriminate|]. intros x c X C T. cbn in X, T.
  repeat (destruct X as [<-|X]; [cbn in C; repeat (destruct C as [<-|C]; [repeat (destruct T as [T|T]; [discriminate|]); exact T|]); exact C|]). exact X.
Qed.

Example C85_instance :
  get_command "!" quantas_commands "qha" = Command "qha" /\
  get_command "!" quantas_commands "hqa" = Fails "!" (message "hqa" ["ha"; "qha"]) /\
  get_command "!" quantas_commands "e" = Fails "!" (message "e" ["eosfit"; "export"]) /\
  get_command "!" inpgen_commands "qha" = Fails "!" (message "qha" ["ha"]) /\
  get_command "!" quantas_commands "" = Fails "!" (message "" ["eosfit"; "export"; "ha"]) /\
  message "hqa" ["ha"; "qha"] = "'hqa' is not a Quantas command." +++ nl +++ nl +++ "The most similar commands are: " +++ nl +++ tab +++ "ha" +++ nl +++ tab +++ "qha" /\
  one_edit (chars "qha") (chars "hqa") /\ shares_piece "export" "expert" /\ similar "ha" "hqa" /\ begins "e" "export".
Proof.
  repeat match goal with |- _ /\ _ => split end; try (vm_compute; reflexivity).
  - exact (exchanged [] "q"%char "h"%char ["a"%char]).
  - exists (chars "exp"), [], (chars "ort"), [], (chars "ert"). split; [reflexivity|]. split; [reflexivity|]. cbn. lia.
  - exists (chars "ha"). split; [apply subseq_refl|]. split; [|cbn; lia]. cbn. apply sub_take, sub_skip, sub_take, sub_nil.
  - exists "xport". reflexivity.
Qed.
(** More than three similar names: the best three are listed. *)
Example C85_four_instance : get_command "!" ["soec1"; "soec2"; "soec3"; "soec45"] "soec" = Fails "!" (message "soec" ["soec1"; "soec2"; "soec3"]).
Proof. vm_compute. reflexivity. Qed.

Print Assumptions C85_registered.
Print Assumptions C85_that_one.
Print Assumptions C85_unknown.
Print Assumptions C85_found.
Print Assumptions C85_found_few.
Print Assumptions C85_nothing.
Print Assumptions C85_long.
Print Assumptions C85_begins.
Print Assumptions C85_typo.
Print Assumptions C85_beginning.
Print Assumptions C85_seismic_refuted.
Print Assumptions C85_capitals_refuted.
