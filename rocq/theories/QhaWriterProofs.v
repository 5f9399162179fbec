(** The generated text as a YAML document. *)
From Coq Require Import Reals String Ascii List Bool Arith ZArith NArith Lia.
From Flocq Require Import Core.
From Verif Require Import Py DecimalModel DecimalProofs QhaReaderModel FormatModel YamlSpec FormatProofs QhaWriterModel.
Import ListNotations.
Open Scope string_scope.
Open Scope list_scope.
Open Scope nat_scope.

(** ** Strings *)
Definition not_in (l : list ascii) (a : ascii) : bool := negb (existsb (Ascii.eqb a) l).
Lemma chars_imp (p q : ascii -> bool) s : (forall a, p a = true -> q a = true) -> all_chars p s = true -> all_chars q s = true.
Proof.
  intros H. induction s as [|a s IH]; [reflexivity|]. cbn [all_chars]. intros E. apply andb_prop in E. destruct E as (A & B).
  rewrite (H a A), (IH B). reflexivity.
Qed.
Lemma ascii_cases (p : ascii -> bool) :
  (fix go (n : nat) : bool := match n with O => true | S m => (p (ascii_of_nat m) && go m)%bool end) 256 = true -> forall a, p a = true.
Proof.
  intros H a. set (g := fix go (n : nat) : bool := match n with O => true | S m => (p (ascii_of_nat m) && go m)%bool end) in H.
  assert (X : forall n k, g n = true -> k < n -> p (ascii_of_nat k) = true).
  { induction n as [|n IH]; intros k G L; [lia|]. cbn in G. apply andb_prop in G. destruct G as (G1 & G2).
    destruct (Nat.eq_dec k n) as [->|]; [exact G1|apply IH; [exact G2|lia]]. }
  rewrite <- (ascii_nat_embedding a). apply (X 256); [exact H|apply nat_ascii_bounded].
Qed.
Lemma number_ok a : (negb (number_char a) || (not_in ["]"; ","; "["; "{"; "}"; ":"; "#"; " "; newline]%char a && negb (is_space a)))%bool = true.
Proof. revert a. apply ascii_cases. vm_compute. reflexivity. Qed.
Lemma number_imp (q : ascii -> bool) s :
  (forall a, (negb (not_in ["]"; ","; "["; "{"; "}"; ":"; "#"; " "; newline]%char a && negb (is_space a)) || q a)%bool = true) ->
  all_chars number_char s = true -> all_chars q s = true.
Proof.
  intros H. apply chars_imp. intros a N. pose proof (number_ok a) as X. rewrite N in X. cbn [negb orb] in X.
  pose proof (H a) as Y. rewrite X in Y. exact Y.
Qed.
Lemma number_no_space s : all_chars number_char s = true -> no_space s.
Proof.
  apply number_imp. intros a. destruct (not_in _ a); [|reflexivity]. cbn [andb]. now destruct (is_space a).
Qed.
(** Number or blank: what flow sequences are made of, besides commas. *)
Definition flow_char (a : ascii) : bool := not_in ["]"; ","; "["; "{"; "}"; ":"; "#"; newline]%char a.
Lemma number_flow s : all_chars number_char s = true -> all_chars flow_char s = true.
Proof.
  apply number_imp. apply ascii_cases. vm_compute. reflexivity.
Qed.
Lemma spaces_flow n : all_chars flow_char (spaces n) = true.
Proof. induction n; [reflexivity|exact IHn]. Qed.
Lemma spaces_space n : all_space (spaces n) = true.
Proof. induction n; [reflexivity|exact IHn]. Qed.
Lemma all_space_app a b : all_space (a +++ b) = (all_space a && all_space b)%bool.
Proof. induction a as [|c a IH]; [reflexivity|]. cbn [append all_space]. rewrite IH. apply andb_assoc. Qed.
Lemma lstrip_space a s : all_space a = true -> lstrip (a +++ s) = lstrip s.
Proof. induction a as [|c a IH]; [reflexivity|]. cbn [all_space append lstrip]. intros H. apply andb_prop in H. destruct H as (-> & H). exact (IH H). Qed.
Lemma rstrip_space b : all_space b = true -> rstrip b = "".
Proof. destruct b as [|c b]; [reflexivity|]. cbn [rstrip]. now intros ->. Qed.
Lemma rstrip_word w b : no_space w -> w <> "" -> all_space b = true -> rstrip (w +++ b) = w.
Proof.
  unfold no_space. intros H N B. induction w as [|c w IH]; [contradiction|]. cbn [all_chars append] in *. apply andb_prop in H. destruct H as (C & H).
  apply negb_true_iff in C. cbn [rstrip all_space]. rewrite C. cbn [andb]. f_equal. destruct w as [|d w]; [|apply IH; [exact H|discriminate]].
  cbn [append]. now apply rstrip_space.
Qed.
Lemma lstrip_word w b : no_space w -> w <> "" -> lstrip (w +++ b) = w +++ b.
Proof.
  unfold no_space. intros H N. destruct w as [|c w]; [contradiction|]. cbn [all_chars append lstrip] in *. apply andb_prop in H. destruct H as (C & _).
  apply negb_true_iff in C. now rewrite C.
Qed.
Lemma strip_word a w b : all_space a = true -> no_space w -> w <> "" -> all_space b = true -> strip (a +++ w +++ b) = w.
Proof. intros A W N B. unfold strip. rewrite lstrip_space, lstrip_word, rstrip_word by assumption. reflexivity. Qed.
Lemma rstrip_end s c : is_space c = false -> rstrip (s +++ String c "") = s +++ String c "".
Proof.
  intros C. induction s as [|a s IH]; cbn [append rstrip]; cbn [all_space]; [now rewrite C|].
  rewrite all_space_app. cbn [all_space]. rewrite C, !andb_false_r. now rewrite IH.
Qed.

(** ** Flow sequences *)
Lemma flow_word cur w s : all_chars flow_char w = true -> flow cur (w +++ s) = flow (cur +++ w) s.
Proof.
  revert cur; induction w as [|a w IH]; intros cur H; [now rewrite append_nil|]. cbn [all_chars] in H. apply andb_prop in H. destruct H as (A & B).
  unfold flow_char, not_in in A. apply negb_true_iff in A. cbn [existsb] in A. repeat (apply orb_false_elim in A; destruct A as (? & A)).
  cbn [append flow]. rewrite H, H0, H1, H2, H3, H4. cbn [orb]. rewrite IH by exact B. now rewrite append_assoc.
Qed.
Definition sep_ok (sep : string) : Prop := exists n, sep = String "," (spaces n).
Lemma flow_fields (f : R -> string) (g : R -> yaml) (body : R -> string) sep l :
  sep_ok sep -> (forall x, exists n, f x = spaces n +++ body x) -> (forall x, all_chars number_char (body x) = true /\ body x <> "") ->
  (forall x, scalar (body x) = Some (g x)) -> l <> [] ->
  forall m, exists ws, flow (spaces m) (fields sep f l) = Some ws /\ traverse (fun w => scalar (strip w)) ws = Some (map g l).
Proof.
  intros (k & ->) F B S. induction l as [|x l IH]; intros N m; [contradiction|].
  destruct (F x) as (n & E). destruct (B x) as (B1 & B2).
  destruct l as [|y l].
  - cbn [fields]. rewrite E, append_assoc. rewrite flow_word by apply spaces_flow. rewrite flow_word by now apply number_flow.
    cbn [append flow]. cbn. eexists. split; [reflexivity|]. cbn [traverse map].
    rewrite append_assoc, append_assoc. rewrite <- (append_assoc (spaces m)), strip_word.
    + rewrite S. reflexivity.
    + rewrite all_space_app, !spaces_space. reflexivity.
    + now apply number_no_space.
    + exact B2.
    + reflexivity.
  - change (fields (String "," (spaces k)) f (x :: y :: l)) with (f x +++ String "," (spaces k) +++ fields (String "," (spaces k)) f (y :: l)).
    rewrite E, append_assoc. rewrite flow_word by apply spaces_flow. rewrite flow_word by now apply number_flow.
    set (rest := fields _ f (y :: l)) in *. cbn [append]. cbn [flow].
    change (Ascii.eqb "," "]") with false. change (Ascii.eqb "," ",") with true. cbv iota.
    rewrite flow_word by apply spaces_flow. cbn [append].
    destruct (IH ltac:(discriminate) k) as (ws & W & T). rewrite W. cbn [option_map].
    eexists. split; [reflexivity|]. cbn [traverse map]. cbn [map] in T. rewrite T.
    rewrite append_assoc, <- (append_nil (body x)), <- (append_assoc (spaces m)), strip_word.
    + rewrite S. reflexivity.
    + rewrite all_space_app, !spaces_space. reflexivity.
    + now apply number_no_space.
    + exact B2.
    + reflexivity.
Qed.
Lemma fields_end sep f l : l <> [] -> exists s, fields sep f l = s +++ "]".
Proof.
  induction l as [|x l IH]; intros N; [contradiction|]. destruct l as [|y l].
  - exists (f x +++ " "). cbn [fields]. now rewrite append_assoc.
  - destruct (IH ltac:(discriminate)) as (s & E).
    change (fields sep f (x :: y :: l)) with (f x +++ sep +++ fields sep f (y :: l)). rewrite E. exists (f x +++ sep +++ s). now rewrite !append_assoc.
Qed.
Lemma inline_flow s ws l : flow "" (s +++ "]") = Some ws -> traverse (fun w => scalar (strip w)) ws = Some l ->
  forall a, all_space a = true -> inline (a +++ String "[" (s +++ "]")) = Some (YList l).
Proof.
  intros F T a A. unfold inline.
  assert (E : strip (a +++ String "[" (s +++ "]")) = String "[" (s +++ "]")).
  { unfold strip. rewrite lstrip_space by exact A. cbn [lstrip]. change (is_space "[") with false. cbv iota.
    change (String "[" (s +++ "]")) with (String "[" s +++ "]"). now rewrite rstrip_end. }
  rewrite E, F, T. reflexivity.
Qed.
Lemma inline_fields (f : R -> string) (g : R -> yaml) (body : R -> string) sep l a :
  sep_ok sep -> (forall x, exists n, f x = spaces n +++ body x) -> (forall x, all_chars number_char (body x) = true /\ body x <> "") ->
  (forall x, scalar (body x) = Some (g x)) -> l <> [] -> all_space a = true ->
  inline (a +++ String "[" (" " +++ fields sep f l)) = Some (YList (map g l)).
Proof.
  intros K F B S N A. destruct (flow_fields f g body sep l K F B S N 1) as (ws & W & T). destruct (fields_end sep f l N) as (s & E).
  change (flow (spaces 1) (fields sep f l)) with (flow ("" +++ " ") (fields sep f l)) in W. rewrite <- flow_word in W by reflexivity.
  rewrite E in *. change (" " +++ s +++ "]") with (String " " s +++ "]") in *. apply (inline_flow _ _ _ W T). exact A.
Qed.

Lemma dim_fields a b c : dim_line (a, b, c) = "- [ " +++ fields ", " (fun x => fmt_d 6 (Ztrunc x)) [a; b; c].
Proof. reflexivity. Qed.
Lemma position_fields a b c x y z : position_line (a, b, c) (x, y, z) = "- q-position: [ " +++ fields ", " (fmt_f 12 7) [a / x; b / y; c / z]%R.
Proof. reflexivity. Qed.
Definition num_of (v : R -> R) (x : R) : yaml := YNum (v x).
Lemma inline_volume a l : l <> [] -> all_space a = true -> inline (a +++ String "[" (" " +++ fields "," (fmt_f 16 8) l)) = Some (YList (map (num_of (fix_value 8)) l)).
Proof.
  intros N A. apply inline_fields with (body := fix_text 8); try assumption; [now exists 0| apply fmt_f_text | intros x; split; [apply fix_chars|apply fix_nonempty] |].
  intros x. apply scalar_fix. lia.
Qed.
Lemma inline_energy a l : l <> [] -> all_space a = true -> inline (a +++ String "[" (" " +++ fields "," (fmt_E 20 12) l)) = Some (YList (map (num_of (sci_value 12)) l)).
Proof.
  intros N A. apply inline_fields with (body := sci_body 12); try assumption; [now exists 0| apply fmt_E_text | intros x; split; [apply sci_chars|apply sci_nonempty] |].
  intros x. apply scalar_sci. lia.
Qed.
Lemma inline_freq a l : l <> [] -> all_space a = true -> inline (a +++ String "[" (" " +++ fields ", " (fmt_f 16 10) l)) = Some (YList (map (num_of (fix_value 10)) l)).
Proof.
  intros N A. apply inline_fields with (body := fix_text 10); try assumption; [now exists 1| apply fmt_f_text | intros x; split; [apply fix_chars|apply fix_nonempty] |].
  intros x. apply scalar_fix. lia.
Qed.
Lemma inline_position a l : l <> [] -> all_space a = true -> inline (a +++ String "[" (" " +++ fields ", " (fmt_f 12 7) l)) = Some (YList (map (num_of (fix_value 7)) l)).
Proof.
  intros N A. apply inline_fields with (body := fix_text 7); try assumption; [now exists 1| apply fmt_f_text | intros x; split; [apply fix_chars|apply fix_nonempty] |].
  intros x. apply scalar_fix. lia.
Qed.
Definition int_of (x : R) : yaml := YInt (Ztrunc x).
Lemma inline_dim a l : l <> [] -> all_space a = true -> inline (a +++ String "[" (" " +++ fields ", " (fun x => fmt_d 6 (Ztrunc x)) l)) = Some (YList (map int_of l)).
Proof.
  intros N A. apply inline_fields with (body := fun x => int_text (Ztrunc x)); try assumption; [now exists 1| intros x; apply fmt_d_text | intros x; split; [apply int_chars|apply int_nonempty] |].
  intros x. apply scalar_int.
Qed.
Lemma int_head z : exists c r, int_text z = String c r /\ Ascii.eqb c "[" = false.
Proof.
  pose proof (int_nonempty z) as N. pose proof (int_chars z) as C. destruct (int_text z) as [|c r]; [contradiction|].
  cbn [all_chars] in C. apply andb_prop in C. exists c, r. split; [reflexivity|]. apply Ascii.eqb_neq. intros ->. destruct C as (C & _). discriminate.
Qed.
Lemma inline_word s w : strip s = w -> (forall r, w <> String "[" r) -> inline s = scalar w.
Proof.
  intros E N. unfold inline. rewrite E. destruct w as [|[[] [] [] [] [] [] [] []] r]; try reflexivity. now destruct (N r).
Qed.
Lemma inline_int a z b : all_space a = true -> all_space b = true -> inline (a +++ int_text z +++ b) = Some (YInt z).
Proof.
  intros A B. rewrite (inline_word _ (int_text z)).
  - apply scalar_int.
  - apply strip_word; [exact A|apply number_no_space, int_chars|apply int_nonempty|exact B].
  - intros r E. destruct (int_head z) as (c & q & F & G). rewrite F in E. injection E as -> _. discriminate.
Qed.

(** ** The description line *)
(** It starts with a letter, has no #, : or line break and is not a word with
    another meaning in YAML. *)
Definition plain (s : string) : Prop :=
  (exists a r, s = String a r /\ is_letter a = true) /\ all_chars (not_in ["#"; ":"; newline]%char) s = true /\ mem (lower (strip s)) reserved = false.
Lemma colon_none cur s : all_chars (not_in [":"]%char) s = true -> colon cur s = None.
Proof.
  revert cur; induction s as [|a s IH]; intros cur H; [reflexivity|]. cbn [all_chars] in H. apply andb_prop in H. destruct H as (A & B).
  unfold not_in in A. cbn [existsb] in A. apply negb_true_iff in A. apply orb_false_elim in A. destruct A as (A & _).
  cbn [colon]. rewrite A. cbn [andb]. now apply IH.
Qed.
Lemma letter_ok a : (negb (is_letter a) || negb (is_space a || is_digit a || Ascii.eqb a "-" || Ascii.eqb a "+" || Ascii.eqb a "[" || Ascii.eqb a "#"))%bool = true.
Proof. revert a. apply ascii_cases. vm_compute. reflexivity. Qed.
Lemma rstrip_chars (p : ascii -> bool) s : all_chars p s = true -> all_chars p (rstrip s) = true.
Proof.
  induction s as [|a s IH]; [reflexivity|]. cbn [all_chars rstrip]. intros H. apply andb_prop in H. destruct H as (A & B).
  destruct (all_space (String a s)); [reflexivity|]. cbn [all_chars]. now rewrite A, IH.
Qed.
Lemma inline_plain s : plain s -> inline (" " +++ s) = Some (YStr (strip s)).
Proof.
  intros ((a & r & -> & L) & C & M). pose proof (letter_ok a) as K. rewrite L in K. cbn [negb orb] in K. apply negb_true_iff in K.
  do 5 (apply orb_false_elim in K; destruct K as (K & ?)).
  assert (E : strip (" " +++ String a r) = String a (rstrip r)).
  { unfold strip. cbn [append lstrip]. change (is_space " ") with true. cbv iota. rewrite K. cbn [rstrip all_space]. now rewrite K. }
  assert (E' : strip (String a r) = String a (rstrip r)).
  { unfold strip. cbn [lstrip]. rewrite K. cbn [rstrip all_space]. now rewrite K. }
  rewrite (inline_word _ _ E); [|intros q Q; injection Q as -> _; discriminate].
  rewrite E' in *. unfold scalar.
  assert (TS : take_sign (String a (rstrip r)) = (false, String a (rstrip r))) by (unfold take_sign; now rewrite H2, H1).
  assert (TD : take_digits (String a (rstrip r)) = ("", String a (rstrip r))) by (cbn [take_digits]; now rewrite H3).
  unfold int_scalar. rewrite TS. unfold all_digits. rewrite TD. cbn [andb]. unfold float_form. rewrite TS, TD. rewrite L, M. cbn [andb negb].
  rewrite colon_none; [reflexivity|].
  assert (X : all_chars (not_in [":"]%char) (String a r) = true).
  { revert C. apply chars_imp.
    intros c Hc. unfold not_in in *. cbn [existsb] in *. apply negb_true_iff in Hc. apply orb_false_elim in Hc. destruct Hc as (_ & Hc). apply orb_false_elim in Hc. destruct Hc as (-> & _). reflexivity. }
  cbn [all_chars] in X |- *. apply andb_prop in X. destruct X as (X1 & X2). rewrite X1. cbn [andb]. now apply rstrip_chars.
Qed.

(** ** Lines *)
Lemma lines_aux_word cur w s : no_newline w -> lines_aux cur (w +++ s) = lines_aux (cur +++ w) s.
Proof.
  revert cur; induction w as [|a w IH]; intros cur H; [now rewrite append_nil|]. unfold no_newline in H. cbn [all_chars] in H. apply andb_prop in H.
  destruct H as (A & B). apply negb_true_iff in A. cbn [append lines_aux]. rewrite A, IH by exact B. now rewrite append_assoc.
Qed.
Lemma lines_join l : Forall no_newline l -> l <> [] -> lines (join_lines l) = l.
Proof.
  unfold lines. induction l as [|x r IH]; intros F N; [contradiction|]. inversion F as [|? ? Fx Fr]; subst. destruct r as [|y r].
  - cbn [join_lines]. rewrite <- (append_nil x) at 1. rewrite lines_aux_word by exact Fx. reflexivity.
  - change (join_lines (x :: y :: r)) with (x +++ String newline (join_lines (y :: r))). rewrite lines_aux_word by exact Fx.
    cbn [lines_aux append]. rewrite Ascii.eqb_refl. f_equal. apply IH; [exact Fr|discriminate].
Qed.
Definition line_char := not_in ["#"; newline]%char.
Lemma line_no_newline s : all_chars line_char s = true -> no_newline s.
Proof.
  apply chars_imp. intros a H. unfold line_char, not_in in H. cbn [existsb] in H. apply negb_true_iff in H.
  apply orb_false_elim in H. destruct H as (_ & H). apply orb_false_elim in H. destruct H as (-> & _). reflexivity.
Qed.
Lemma uncomment_none b s : all_chars line_char s = true -> uncomment b s = s.
Proof.
  revert b; induction s as [|a s IH]; intros b H; [reflexivity|]. cbn [all_chars] in H. apply andb_prop in H. destruct H as (A & B).
  unfold line_char, not_in in A. cbn [existsb] in A. apply negb_true_iff in A. apply orb_false_elim in A. destruct A as (A & _).
  cbn [uncomment]. rewrite A, andb_false_r. now rewrite IH.
Qed.
Lemma number_line_chars s : all_chars number_char s = true -> all_chars line_char s = true.
Proof. apply number_imp. apply ascii_cases. vm_compute. reflexivity. Qed.
Lemma flow_line_chars s : all_chars flow_char s = true -> all_chars line_char s = true.
Proof.
  apply chars_imp. intros a H. pose proof (ascii_cases (fun c => implb (flow_char c) (line_char c)) eq_refl a) as X. cbv beta in X. rewrite H in X. exact X.
Qed.
Lemma spaces_line n : all_chars line_char (spaces n) = true.
Proof. apply flow_line_chars, spaces_flow. Qed.
Lemma fields_chars (p : ascii -> bool) sep f l : all_chars p sep = true -> (forall x, all_chars p (f x) = true) -> all_chars p " ]" = true -> all_chars p (fields sep f l) = true.
Proof.
  intros S F E. induction l as [|x l IH]; [reflexivity|]. destruct l as [|y l].
  - cbn [fields]. now rewrite all_chars_app, F, E.
  - change (fields sep f (x :: y :: l)) with (f x +++ sep +++ fields sep f (y :: l)). now rewrite !all_chars_app, F, S, IH.
Qed.
Definition plain_char := not_in ["#"; ":"; newline]%char.
Lemma number_plain_chars s : all_chars number_char s = true -> all_chars plain_char s = true.
Proof. apply number_imp. apply ascii_cases. vm_compute. reflexivity. Qed.
Lemma spaces_plain n : all_chars plain_char (spaces n) = true.
Proof. induction n; [reflexivity|exact IHn]. Qed.
Lemma plain_line s : all_chars plain_char s = true -> all_chars line_char s = true.
Proof.
  apply chars_imp. intros a H. pose proof (ascii_cases (fun c => implb (plain_char c) (line_char c)) eq_refl a) as X. cbv beta in X. rewrite H in X. exact X.
Qed.
Lemma fmt_f_chars w k x : all_chars plain_char (fmt_f w k x) = true.
Proof. destruct (fmt_f_text w k x) as (n & ->). rewrite all_chars_app, spaces_plain, number_plain_chars by apply fix_chars. reflexivity. Qed.
Lemma fmt_E_chars w k x : all_chars plain_char (fmt_E w k x) = true.
Proof. destruct (fmt_E_text w k x) as (n & ->). rewrite all_chars_app, spaces_plain, number_plain_chars by apply sci_chars. reflexivity. Qed.
Lemma fmt_d_chars w x : all_chars plain_char (fmt_d w x) = true.
Proof. destruct (fmt_d_text w x) as (n & ->). rewrite all_chars_app, spaces_plain, number_plain_chars by apply int_chars. reflexivity. Qed.
Lemma fmt_d_left_chars w x : all_chars plain_char (fmt_d_left w x) = true.
Proof. unfold fmt_d_left, pad_right. rewrite all_chars_app, spaces_plain, number_plain_chars by apply int_chars. reflexivity. Qed.
Lemma fields_plain sep f l : all_chars plain_char sep = true -> (forall x, all_chars plain_char (f x) = true) -> all_chars plain_char (fields sep f l) = true.
Proof. intros S F. now apply fields_chars. Qed.
(** An ordinary line keeps its text, a line "  - # n" loses its comment. *)
Definition seen (s : string) : line := measure 0 (uncomment true s).
Lemma seen_line s : all_chars line_char s = true -> seen s = measure 0 s.
Proof. intros H. unfold seen. now rewrite uncomment_none. Qed.
Lemma seen_number j : seen (number_line j) = (2, "- ").
Proof. reflexivity. Qed.
Lemma number_line_ok j : no_newline (number_line j).
Proof.
  unfold no_newline, number_line. rewrite all_chars_app. rewrite (number_imp (fun a => negb (Ascii.eqb a newline)) (print_nat _)); [reflexivity| |apply digits_number, print_nat_digits].
  apply ascii_cases. vm_compute. reflexivity.
Qed.
Lemma not_blank n c s : is_space c = false -> blank (n, String c s) = false.
Proof. intros C. unfold blank, strip. cbn [snd lstrip]. rewrite C. cbn [rstrip all_space]. rewrite C. reflexivity. Qed.

(** ** Grouping *)
Lemma span_app p body rest : Forall (fun x => p x = true) body -> (match rest with [] => True | x :: _ => p x = false end) -> span p (body ++ rest) = (body, rest).
Proof.
  intros B R0. induction body as [|x body IH].
  - cbn [app]. destruct rest as [|y r]; [reflexivity|]. cbn [span]. now rewrite R0.
  - inversion B as [|? ? Bx Br]; subst. cbn [app span]. rewrite Bx, (IH Br). reflexivity.
Qed.
Definition flat (g : line * list line) : list line := fst g :: snd g.
Lemma groups_flat p gs fuel : Forall (fun g => p (fst g) = false /\ Forall (fun x => p x = true) (snd g)) gs -> List.length gs <= fuel ->
  groups fuel p (List.concat (map flat gs)) = gs.
Proof.
  revert fuel; induction gs as [|(h, b) gs IH]; intros fuel F L; [destruct fuel; reflexivity|].
  inversion F as [|? ? (Fh & Fb) Fr]; subst. destruct fuel as [|fuel]; [cbn in L; lia|]. cbn [map List.concat flat fst snd app groups].
  rewrite span_app; [| exact Fb |].
  - cbn [fst snd]. f_equal. apply IH; [exact Fr|cbn in L; lia].
  - destruct gs as [|(h', b') gs]; [exact I|]. cbn [map List.concat flat fst snd app]. inversion Fr as [|? ? (X & _) _]; subst. exact X.
Qed.
Lemma flat_length gs : List.length gs <= List.length (List.concat (map flat gs)).
Proof. induction gs as [|(h, b) gs IH]; [reflexivity|]. cbn [map List.concat flat fst snd app List.length]. rewrite app_length. lia. Qed.
Lemma traverse_map {A B C} (f : B -> option C) (g : A -> B) (h : A -> C) l : (forall x, In x l -> f (g x) = Some (h x)) -> traverse f (map g l) = Some (map h l).
Proof.
  induction l as [|x l IH]; intros H; [reflexivity|]. cbn [map traverse]. rewrite H, IH; [reflexivity| |now left]. intros y I0. apply H. now right.
Qed.
Lemma block_seq d i t b gs ys : is_item t = true ->
  let ls := List.concat (map flat (((i, t), b) :: gs)) in
  Forall (fun g => in_item i (fst g) = false /\ Forall (fun x => in_item i x = true) (snd g)) (((i, t), b) :: gs) ->
  traverse (seq_entry (block d) i) (((i, t), b) :: gs) = Some ys ->
  block (S d) ls = Some (YList ys).
Proof.
  intros T ls F E. pose proof (groups_flat _ _ (List.length ls) F (flat_length _)) as G. fold ls in G.
  change (block (S d) ls) with (if is_item t then option_map YList (traverse (seq_entry (block d) i) (groups (List.length ls) (in_item i) ls))
    else match colon "" t with
         | None => match b ++ List.concat (map flat gs) with [] => inline t | _ => None end
         | Some _ => option_map YMap (traverse (map_entry (block d) i) (groups (List.length ls) (in_entry i) ls))
         end).
  rewrite T, G, E. reflexivity.
Qed.
Lemma block_map d i t b gs ys kv : is_item t = false -> colon "" t = Some kv ->
  let ls := List.concat (map flat (((i, t), b) :: gs)) in
  Forall (fun g => in_entry i (fst g) = false /\ Forall (fun x => in_entry i x = true) (snd g)) (((i, t), b) :: gs) ->
  traverse (map_entry (block d) i) (((i, t), b) :: gs) = Some ys ->
  block (S d) ls = Some (YMap ys).
Proof.
  intros T K ls F E. pose proof (groups_flat _ _ (List.length ls) F (flat_length _)) as G. fold ls in G.
  change (block (S d) ls) with (if is_item t then option_map YList (traverse (seq_entry (block d) i) (groups (List.length ls) (in_item i) ls))
    else match colon "" t with
         | None => match b ++ List.concat (map flat gs) with [] => inline t | _ => None end
         | Some _ => option_map YMap (traverse (map_entry (block d) i) (groups (List.length ls) (in_entry i) ls))
         end).
  rewrite T, K, G, E. reflexivity.
Qed.
Lemma entry_value d i u k v y : is_item u = false -> colon "" u = Some (k, v) -> String.eqb (strip v) "" = false -> inline v = Some y ->
  map_entry (block d) i ((i, u), []) = Some (k, y).
Proof. intros I0 C S E. unfold map_entry. rewrite Nat.eqb_refl, I0, C, S, E. reflexivity. Qed.
Lemma entry_block d i u k v body y : is_item u = false -> colon "" u = Some (k, v) -> String.eqb (strip v) "" = true -> block d body = Some y ->
  map_entry (block d) i ((i, u), body) = Some (k, y).
Proof. intros I0 C S E. unfold map_entry. rewrite Nat.eqb_refl, I0, C, S, E. reflexivity. Qed.
Lemma strip_not_empty s : (exists c r, lstrip s = String c r /\ is_space c = false) -> String.eqb (strip s) "" = false.
Proof. intros (c & r & E & C). unfold strip. rewrite E. cbn [rstrip all_space]. rewrite C. reflexivity. Qed.

(** ** The document *)
Section Document.
Variables (job : string) (na : Z) (dims : three_reals * three_reals * three_reals) (nq nm : nat) (vols ens : list R).
Variables (q : nat -> three_reals) (s : three_reals) (w : nat -> R) (fr : nat -> nat -> list R).
(** how the description line is read *)
Variable (yj : yaml).
Definition doc_header : list string :=
  let '(d1, d2, d3) := dims in
  ["job: " +++ job; "natom:   " +++ fmt_d_left 7 na; "supercell:"; dim_line d1; dim_line d2; dim_line d3; "qpoints: " +++ int_text (Z.of_nat nq)].
Definition doc_mode (i j : nat) : list string := [number_line j; frequency_line (fr i j)].
Definition doc_q (i : nat) : list string :=
  [position_line (q i) s; "  weight: " +++ fmt_d_left 5 (Ztrunc (w i)); "  band:"] ++ List.concat (map (doc_mode i) (seq 0 nm)) ++ [""].
Definition doc_lines : list string :=
  doc_header ++ [volume_line vols; energy_line ens; "phonon:"] ++ List.concat (map doc_q (seq 0 nq)).

(** The document they describe *)
Definition triple_list {A} (f : R -> A) (t : three_reals) : list A := let '(a, b, c) := t in [f a; f b; f c].
Definition quotient (t u : three_reals) : three_reals := let '(a, b, c) := t in let '(x, y, z) := u in (a / x, b / y, c / z)%R.
Definition y_mode (i j : nat) : yaml := YMap [("frequency", YList (map (num_of (fix_value 10)) (fr i j)))].
Definition y_q (i : nat) : yaml :=
  YMap [("q-position", YList (triple_list (num_of (fix_value 7)) (quotient (q i) s))); ("weight", YInt (Ztrunc (w i)));
        ("band", YList (map (y_mode i) (seq 0 nm)))].
Definition y_dim : yaml := let '(d1, d2, d3) := dims in YList [YList (triple_list int_of d1); YList (triple_list int_of d2); YList (triple_list int_of d3)].
Definition y_doc : yaml :=
  YMap [("job", yj); ("natom", YInt na); ("supercell", y_dim); ("qpoints", YInt (Z.of_nat nq));
        ("volume", YList (map (num_of (fix_value 8)) vols)); ("energy", YList (map (num_of (sci_value 12)) ens));
        ("phonon", YList (map y_q (seq 0 nq)))].

Hypothesis HJ : all_chars line_char job = true.
Hypothesis HK : forall d, map_entry (block (S d)) 0 ((0, "job: " +++ job), []) = Some ("job", yj).
Hypothesis HV : vols <> [].
Hypothesis HE : ens <> [].
Hypothesis HF : forall i j, fr i j <> [].
Hypothesis HM : 0 < nm.
Hypothesis HQ : 0 < nq.

(** contents *)
Definition dash_text (t : three_reals) : string := let '(a, b, c) := t in "[ " +++ fields ", " (fun x => fmt_d 6 (Ztrunc x)) [a; b; c].
Definition pos_text (t : three_reals) : string := let '(a, b, c) := t in "q-position: [ " +++ fields ", " (fmt_f 12 7) [a; b; c].
Definition freq_text (l : list R) : string := "frequency: [ " +++ fields ", " (fmt_f 16 10) l.
Definition g_mode (i j : nat) : line * list line := ((2, "- "), [(4, freq_text (fr i j))]).
Definition modes (i : nat) : list line := List.concat (map flat (map (g_mode i) (seq 0 nm))).
Definition g_q (i : nat) : line * list line :=
  ((0, "- " +++ pos_text (quotient (q i) s)), (2, "weight: " +++ fmt_d_left 5 (Ztrunc (w i))) :: (2, "band:") :: modes i).
Definition qs : list line := List.concat (map flat (map g_q (seq 0 nq))).
Definition g_dims : list (line * list line) :=
  let '(d1, d2, d3) := dims in [((0, "- " +++ dash_text d1), []); ((0, "- " +++ dash_text d2), []); ((0, "- " +++ dash_text d3), [])].
Definition g_doc : list (line * list line) :=
  [((0, "job: " +++ job), []); ((0, "natom:   " +++ fmt_d_left 7 na), []); ((0, "supercell:"), List.concat (map flat g_dims));
   ((0, "qpoints: " +++ int_text (Z.of_nat nq)), []); ((0, volume_line vols), []); ((0, energy_line ens), []); ((0, "phonon:"), qs)].

Lemma fields_line sep f l : all_chars plain_char sep = true -> (forall x, all_chars plain_char (f x) = true) -> all_chars line_char (fields sep f l) = true.
Proof. intros S0 F. now apply plain_line, fields_plain. Qed.
Lemma dim_line_chars t : all_chars line_char (dim_line t) = true.
Proof. destruct t as ((a, b), c). rewrite dim_fields, all_chars_app, fields_line; [reflexivity|reflexivity|intros; apply fmt_d_chars]. Qed.
Lemma position_line_chars t u : all_chars line_char (position_line t u) = true.
Proof. destruct t as ((a, b), c), u as ((x, y), z). rewrite position_fields, all_chars_app, fields_line; [reflexivity|reflexivity|intros; apply fmt_f_chars]. Qed.
Lemma frequency_line_chars l : all_chars line_char (frequency_line l) = true.
Proof. unfold frequency_line. rewrite all_chars_app, fields_line; [reflexivity|reflexivity|intros; apply fmt_f_chars]. Qed.
Lemma volume_line_chars l : all_chars line_char (volume_line l) = true.
Proof. unfold volume_line. rewrite all_chars_app, fields_line; [reflexivity|reflexivity|intros; apply fmt_f_chars]. Qed.
Lemma energy_line_chars l : all_chars line_char (energy_line l) = true.
Proof. unfold energy_line. rewrite all_chars_app, fields_line; [reflexivity|reflexivity|intros; apply fmt_E_chars]. Qed.
Lemma weight_chars i : all_chars line_char ("  weight: " +++ fmt_d_left 5 (Ztrunc (w i))) = true.
Proof. rewrite all_chars_app, (plain_line (fmt_d_left _ _)) by apply fmt_d_left_chars. reflexivity. Qed.
Lemma job_chars : all_chars line_char ("job: " +++ job) = true.
Proof. rewrite all_chars_app, HJ. reflexivity. Qed.
Lemma natom_chars : all_chars line_char ("natom:   " +++ fmt_d_left 7 na) = true.
Proof. rewrite all_chars_app, (plain_line (fmt_d_left _ _)) by apply fmt_d_left_chars. reflexivity. Qed.
Lemma qpoints_chars : all_chars line_char ("qpoints: " +++ int_text (Z.of_nat nq)) = true.
Proof. rewrite all_chars_app, (number_line_chars (int_text _)) by apply int_chars. reflexivity. Qed.

Lemma no_newlines : Forall no_newline doc_lines.
Proof.
  assert (L : forall x, all_chars line_char x = true -> no_newline x) by apply line_no_newline.
  unfold doc_lines, doc_header. destruct dims as ((d1, d2), d3). apply Forall_app. split.
  { apply Forall_cons; [apply L, job_chars|]. apply Forall_cons; [apply L, natom_chars|]. apply Forall_cons; [reflexivity|].
    do 3 (apply Forall_cons; [apply L, dim_line_chars|]). apply Forall_cons; [apply L, qpoints_chars|]. apply Forall_nil. }
  apply Forall_app. split.
  { apply Forall_cons; [apply L, volume_line_chars|]. apply Forall_cons; [apply L, energy_line_chars|]. apply Forall_cons; [reflexivity|]. apply Forall_nil. }
  apply Forall_forall. intros x I0. apply in_concat in I0. destruct I0 as (l & I1 & I2). apply in_map_iff in I1. destruct I1 as (i & <- & _).
  unfold doc_q in I2. apply in_app_or in I2. destruct I2 as [I2|I2].
  { destruct I2 as [<-|[<-|[<-|[]]]]; apply L; [apply position_line_chars|apply weight_chars|reflexivity]. }
  apply in_app_or in I2. destruct I2 as [I2|[<-|[]]]; [|reflexivity].
  apply in_concat in I2. destruct I2 as (m & I3 & I4). apply in_map_iff in I3. destruct I3 as (j & <- & _).
  destruct I4 as [<-|[<-|[]]]; [apply number_line_ok|apply L, frequency_line_chars].
Qed.

Definition keep (l : list string) : list line := filter (fun x => negb (blank x)) (map seen l).
Lemma keep_app a b : keep (a ++ b) = keep a ++ keep b.
Proof. unfold keep. now rewrite map_app, filter_app. Qed.
Lemma keep_concat {A} (f : A -> list string) l : keep (List.concat (map f l)) = List.concat (map (fun x => keep (f x)) l).
Proof. induction l as [|x l IH]; [reflexivity|]. cbn [map List.concat]. now rewrite keep_app, IH. Qed.
Lemma keep_cons x l n t : seen x = (n, t) -> (exists c r, t = String c r /\ is_space c = false) -> keep (x :: l) = (n, t) :: keep l.
Proof. intros E (c & r & -> & C). unfold keep. cbn [map filter]. rewrite E. rewrite not_blank by exact C. reflexivity. Qed.
Ltac head := eexists; eexists; split; [reflexivity|reflexivity].
Lemma keep_mode i j : keep (doc_mode i j) = flat (g_mode i j).
Proof.
  unfold doc_mode. rewrite (keep_cons _ _ 2 "- ") by (apply seen_number || head).
  rewrite (keep_cons _ _ 4 (freq_text (fr i j))); [reflexivity| |head].
  rewrite seen_line by apply frequency_line_chars. reflexivity.
Qed.
Lemma keep_q i : keep (doc_q i) = flat (g_q i).
Proof.
  unfold doc_q. rewrite !keep_app. unfold flat at 1. cbn [fst snd g_q].
  assert (P : position_line (q i) s = "- " +++ pos_text (quotient (q i) s)) by (destruct (q i) as ((a, b), c), s as ((x, y), z); reflexivity).
  rewrite (keep_cons _ _ 0 ("- " +++ pos_text (quotient (q i) s))); [| |head].
  2:{ rewrite seen_line by apply position_line_chars. rewrite P. reflexivity. }
  rewrite (keep_cons _ _ 2 ("weight: " +++ fmt_d_left 5 (Ztrunc (w i)))); [| |head].
  2:{ rewrite seen_line by apply weight_chars. reflexivity. }
  rewrite (keep_cons _ _ 2 "band:"); [|reflexivity|head].
  rewrite keep_concat. change (keep [""]) with (@nil line). change (keep []) with (@nil line). rewrite app_nil_r. cbn [app]. do 3 f_equal.
  unfold modes. rewrite map_map. f_equal. apply map_ext. intros j. apply keep_mode.
Qed.
Lemma content_doc : content (lines (join_lines doc_lines)) = List.concat (map flat g_doc).
Proof.
  rewrite lines_join; [|apply no_newlines|unfold doc_lines, doc_header; destruct dims as ((d1, d2), d3); discriminate].
  change (content doc_lines) with (keep doc_lines). unfold doc_lines. rewrite !keep_app, keep_concat.
  rewrite (map_ext (fun i => keep (doc_q i)) (fun i => flat (g_q i)) keep_q).
  assert (H : keep doc_header = (0, "job: " +++ job) :: (0, "natom:   " +++ fmt_d_left 7 na) :: (0, "supercell:") :: List.concat (map flat g_dims) ++ [(0, "qpoints: " +++ int_text (Z.of_nat nq))]).
  { unfold doc_header, g_dims. destruct dims as ((d1, d2), d3).
    assert (D : forall d, dim_line d = "- " +++ dash_text d) by (intros ((a, b), c); reflexivity).
    rewrite (keep_cons _ _ 0 ("job: " +++ job)); [|rewrite seen_line by apply job_chars; reflexivity|head].
    rewrite (keep_cons _ _ 0 ("natom:   " +++ fmt_d_left 7 na)); [|rewrite seen_line by apply natom_chars; reflexivity|head].
    rewrite (keep_cons _ _ 0 "supercell:"); [|reflexivity|head].
    rewrite (keep_cons _ _ 0 ("- " +++ dash_text d1)); [|rewrite seen_line by apply dim_line_chars; rewrite D; reflexivity|head].
    rewrite (keep_cons _ _ 0 ("- " +++ dash_text d2)); [|rewrite seen_line by apply dim_line_chars; rewrite D; reflexivity|head].
    rewrite (keep_cons _ _ 0 ("- " +++ dash_text d3)); [|rewrite seen_line by apply dim_line_chars; rewrite D; reflexivity|head].
    rewrite (keep_cons _ _ 0 ("qpoints: " +++ int_text (Z.of_nat nq))); [|rewrite seen_line by apply qpoints_chars; reflexivity|head].
    reflexivity. }
  assert (T : keep [volume_line vols; energy_line ens; "phonon:"] = [(0, volume_line vols); (0, energy_line ens); (0, "phonon:")]).
  { rewrite (keep_cons _ _ 0 (volume_line vols)); [|rewrite seen_line by apply volume_line_chars; reflexivity|head].
    rewrite (keep_cons _ _ 0 (energy_line ens)); [|rewrite seen_line by apply energy_line_chars; reflexivity|head].
    rewrite (keep_cons _ _ 0 "phonon:"); [|reflexivity|head]. reflexivity. }
  rewrite H, T. unfold g_doc, qs. rewrite map_map. cbn [map List.concat flat fst snd app]. rewrite app_nil_r. rewrite <- app_assoc. reflexivity.
Qed.
Lemma flow_not_empty (x : string) : String.eqb (strip (" [ " +++ x)) "" = false.
Proof. apply strip_not_empty. exists "["%char, (" " +++ x). split; reflexivity. Qed.
Lemma int_not_empty z a b : all_space a = true -> all_space b = true -> String.eqb (strip (a +++ int_text z +++ b)) "" = false.
Proof.
  intros A B. rewrite strip_word; [|exact A|apply number_no_space, int_chars|apply int_nonempty|exact B].
  apply String.eqb_neq. apply int_nonempty.
Qed.
Lemma left_text n z : exists b, fmt_d_left n z = int_text z +++ b /\ all_space b = true.
Proof. eexists. split; [reflexivity|apply spaces_space]. Qed.
Lemma inline_triple_dim t : inline (dash_text t) = Some (YList (triple_list int_of t)).
Proof. destruct t as ((a, b), c). apply (inline_dim "" [a; b; c]); [discriminate|reflexivity]. Qed.
Lemma colon_flow l : colon "" ("[ " +++ fields ", " (fun x => fmt_d 6 (Ztrunc x)) l) = None.
Proof.
  apply colon_none. rewrite all_chars_app. rewrite (fields_chars (not_in [":"]%char)); [reflexivity|reflexivity| |reflexivity].
  intros x. apply (chars_imp plain_char); [|apply fmt_d_chars]. intros a H.
  pose proof (ascii_cases (fun c => implb (plain_char c) (not_in [":"]%char c)) eq_refl a) as X. cbv beta in X. rewrite H in X. exact X.
Qed.
Lemma dims_block d : block (S (S d)) (List.concat (map flat g_dims)) = Some y_dim.
Proof.
  unfold g_dims, y_dim. destruct dims as ((d1, d2), d3).
  assert (E : forall t, seq_entry (block (S d)) 0 ((0, "- " +++ dash_text t), []) = Some (YList (triple_list int_of t))).
  { intros t. unfold seq_entry. change (is_item ("- " +++ dash_text t)) with true. cbn [Nat.eqb andb]. cbn [append].
    assert (M : measure 1 (String " " (dash_text t)) = (2, dash_text t)) by (destruct t as ((a, b), c); reflexivity).
    rewrite M. rewrite strip_not_empty by (destruct t as ((a, b), c); eexists; eexists; split; reflexivity).
    rewrite <- inline_triple_dim. destruct t as ((a, b), c). unfold dash_text. set (f := fields ", " _ _).
    cbn [block]. change (is_item ("[ " +++ f)) with false. cbv iota. unfold f. rewrite colon_flow. reflexivity. }
  apply (block_seq (S d) 0 ("- " +++ dash_text d1) [] _ _).
  - reflexivity.
  - repeat (apply Forall_cons; [split; [reflexivity|apply Forall_nil]|]). apply Forall_nil.
  - cbn [traverse]. rewrite !E. reflexivity.
Qed.
Lemma mode_block d i j : block (S d) [(4, freq_text (fr i j))] = Some (y_mode i j).
Proof.
  change [(4, freq_text (fr i j))] with (List.concat (map flat [((4, freq_text (fr i j)), [])])).
  apply (block_map d 4 (freq_text (fr i j)) [] [] _ ("frequency", " [ " +++ fields ", " (fmt_f 16 10) (fr i j))).
  - reflexivity.
  - reflexivity.
  - apply Forall_cons; [split; [reflexivity|apply Forall_nil]|apply Forall_nil].
  - cbn [traverse]. rewrite (entry_value d 4 _ "frequency" (" [ " +++ fields ", " (fmt_f 16 10) (fr i j)) (YList (map (num_of (fix_value 10)) (fr i j)))).
    + reflexivity.
    + reflexivity.
    + reflexivity.
    + apply flow_not_empty.
    + apply (inline_freq " "); [apply HF|reflexivity].
Qed.
Lemma modes_block d i : block (S (S d)) (modes i) = Some (YList (map (y_mode i) (seq 0 nm))).
Proof.
  unfold modes. assert (X : exists m, nm = S m) by (exists (nm - 1); lia). destruct X as (m & ->). cbn [seq map].
  apply (block_seq (S d) 2 "- " [(4, freq_text (fr i 0))] (map (g_mode i) (seq 1 m)) _).
  - reflexivity.
  - apply (proj2 (Forall_forall _ (map (g_mode i) (seq 0 (S m))))). intros g I0. apply in_map_iff in I0. destruct I0 as (j & <- & _). split; [reflexivity|].
    apply Forall_cons; [reflexivity|apply Forall_nil].
  - apply (traverse_map (seq_entry (block (S d)) 2) (g_mode i) (y_mode i) (seq 0 (S m))). intros j _. unfold g_mode, seq_entry.
    change (is_item "- ") with true. cbn [Nat.eqb andb]. cbn [measure Ascii.eqb Bool.eqb].
    change (String.eqb (strip "") "") with true. cbv iota. apply mode_block.
Qed.
Lemma modes_in_entry i : Forall (fun x => in_entry 2 x = true) (modes i).
Proof.
  apply Forall_forall. intros x I0. unfold modes in I0. apply in_concat in I0. destruct I0 as (l & I1 & I2). rewrite map_map in I1.
  apply in_map_iff in I1. destruct I1 as (j & <- & _). destruct I2 as [<-|[<-|[]]]; reflexivity.
Qed.
Lemma q_block d i : block (S (S (S d))) ((2, pos_text (quotient (q i) s)) :: snd (g_q i)) = Some (y_q i).
Proof.
  set (t := quotient (q i) s).
  change ((2, pos_text t) :: snd (g_q i)) with
    (List.concat (map flat [((2, pos_text t), []); ((2, "weight: " +++ fmt_d_left 5 (Ztrunc (w i))), []); ((2, "band:"), modes i ++ [])])) || idtac.
  assert (E : (2, pos_text t) :: snd (g_q i) =
    List.concat (map flat [((2, pos_text t), []); ((2, "weight: " +++ fmt_d_left 5 (Ztrunc (w i))), []); ((2, "band:"), modes i)])).
  { cbn [map List.concat flat fst snd app g_q]. now rewrite app_nil_r. }
  rewrite E. assert (C : exists f, colon "" (pos_text t) = Some ("q-position", " [ " +++ f) /\ inline (" [ " +++ f) = Some (YList (triple_list (num_of (fix_value 7)) t))).
  { destruct t as ((a, b), c). exists (fields ", " (fmt_f 12 7) [a; b; c]). split; [reflexivity|]. apply (inline_position " " [a; b; c]); [discriminate|reflexivity]. }
  destruct C as (f & C & In). assert (Nt : is_item (pos_text t) = false) by (destruct t as ((a, b), c); reflexivity).
  apply (block_map (S (S d)) 2 (pos_text t) [] _ _ _ Nt C).
  - apply Forall_cons; [split; [cbn; now rewrite Nt|apply Forall_nil]|].
    apply Forall_cons; [split; [reflexivity|apply Forall_nil]|].
    apply Forall_cons; [split; [reflexivity|apply modes_in_entry]|apply Forall_nil].
  - cbn [traverse]. rewrite (entry_value _ 2 _ _ _ _ Nt C (flow_not_empty f) In).
    destruct (left_text 5 (Ztrunc (w i))) as (b & Eb & Sb).
    rewrite (entry_value _ 2 ("weight: " +++ fmt_d_left 5 (Ztrunc (w i))) "weight" (" " +++ fmt_d_left 5 (Ztrunc (w i))) (YInt (Ztrunc (w i)))).
    + rewrite (entry_block _ 2 "band:" "band" "" _ _ eq_refl eq_refl eq_refl (modes_block d i)). reflexivity.
    + reflexivity.
    + reflexivity.
    + rewrite Eb. now apply int_not_empty.
    + rewrite Eb. now apply inline_int.
Qed.
Lemma qs_block d : block (S (S (S (S d)))) qs = Some (YList (map y_q (seq 0 nq))).
Proof.
  unfold qs. assert (X : seq 0 nq = 0 :: seq 1 (nq - 1)) by (destruct nq; [lia|]; cbn [seq]; do 2 f_equal; lia). rewrite X. cbn [map].
  apply (block_seq (S (S (S d))) 0 ("- " +++ pos_text (quotient (q 0) s)) (snd (g_q 0)) (map g_q (seq 1 (nq - 1))) _).
  - reflexivity.
  - apply (proj2 (Forall_forall _ (map g_q (0 :: seq 1 (nq - 1))))). intros g I0. apply in_map_iff in I0. destruct I0 as (i & <- & _). split; [reflexivity|].
    cbn [g_q snd]. apply Forall_cons; [reflexivity|]. apply Forall_cons; [reflexivity|].
    apply Forall_forall. intros x J. unfold modes in J. apply in_concat in J. destruct J as (l & I1 & I2). rewrite map_map in I1.
    apply in_map_iff in I1. destruct I1 as (j & <- & _). destruct I2 as [<-|[<-|[]]]; reflexivity.
  - apply (traverse_map (seq_entry (block (S (S (S d)))) 0) g_q y_q (0 :: seq 1 (nq - 1))). intros i _. unfold g_q, seq_entry.
    change (is_item ("- " +++ pos_text (quotient (q i) s))) with true. cbn [Nat.eqb andb]. cbn [append].
    assert (M : measure 1 (String " " (pos_text (quotient (q i) s))) = (2, pos_text (quotient (q i) s))) by (destruct (quotient (q i) s) as ((a, b), c); reflexivity).
    rewrite M. rewrite strip_not_empty by (destruct (quotient (q i) s) as ((a, b), c); eexists; eexists; split; reflexivity).
    apply q_block.
Qed.
Lemma doc_block d : block (S (S (S (S (S d))))) (List.concat (map flat g_doc)) = Some y_doc.
Proof.
  unfold g_doc. apply (block_map (S (S (S (S d)))) 0 ("job: " +++ job) [] _ _ ("job", " " +++ job)).
  - reflexivity.
  - reflexivity.
  - apply Forall_cons; [split; [reflexivity|apply Forall_nil]|]. apply Forall_cons; [split; [reflexivity|apply Forall_nil]|].
    apply Forall_cons; [split; [reflexivity|]|].
    { unfold g_dims. destruct dims as ((d1, d2), d3). repeat (apply Forall_cons; [reflexivity|]). apply Forall_nil. }
    do 3 (apply Forall_cons; [split; [reflexivity|apply Forall_nil]|]).
    apply Forall_cons; [split; [reflexivity|]|apply Forall_nil].
    apply Forall_forall. intros x J. unfold qs in J. apply in_concat in J. destruct J as (l & I1 & I2). rewrite map_map in I1.
    apply in_map_iff in I1. destruct I1 as (i & <- & _). unfold g_q, flat in I2. cbn [fst snd] in I2. destruct I2 as [<-|[<-|[<-|I2]]]; [reflexivity|reflexivity|reflexivity|].
    unfold modes in I2. apply in_concat in I2. destruct I2 as (l & I3 & I4). rewrite map_map in I3.
    apply in_map_iff in I3. destruct I3 as (j & <- & _). destruct I4 as [<-|[<-|[]]]; reflexivity.
  - cbn [traverse].
    rewrite HK.
    destruct (left_text 7 na) as (b & Eb & Sb).
    rewrite (entry_value _ 0 ("natom:   " +++ fmt_d_left 7 na) "natom" ("   " +++ fmt_d_left 7 na) (YInt na) eq_refl eq_refl); [|rewrite Eb; now apply int_not_empty|rewrite Eb; now apply inline_int].
    rewrite (entry_block _ 0 "supercell:" "supercell" "" _ _ eq_refl eq_refl eq_refl (dims_block (S (S d)))).
    rewrite (entry_value _ 0 ("qpoints: " +++ int_text (Z.of_nat nq)) "qpoints" (" " +++ int_text (Z.of_nat nq)) (YInt (Z.of_nat nq)) eq_refl eq_refl);
      [|rewrite <- (append_nil (int_text _)); now apply int_not_empty|rewrite <- (append_nil (int_text _)); now apply inline_int].
    rewrite (entry_value _ 0 (volume_line vols) "volume" (" [ " +++ fields "," (fmt_f 16 8) vols) (YList (map (num_of (fix_value 8)) vols)) eq_refl eq_refl (flow_not_empty _) (inline_volume " " _ HV eq_refl)).
    rewrite (entry_value _ 0 (energy_line ens) "energy" (" [ " +++ fields "," (fmt_E 20 12) ens) (YList (map (num_of (sci_value 12)) ens)) eq_refl eq_refl (flow_not_empty _) (inline_energy " " _ HE eq_refl)).
    rewrite (entry_block _ 0 "phonon:" "phonon" "" _ _ eq_refl eq_refl eq_refl (qs_block d)). reflexivity.
Qed.
(** The generated text is read as that document. *)
Lemma written_document : yaml_of (join_lines doc_lines) = Some y_doc.
Proof. unfold yaml_of. rewrite content_doc. apply (doc_block 25). Qed.
End Document.
Lemma first_none d i t kv l r : is_item t = false -> colon "" t = Some kv -> in_entry i l = false ->
  map_entry (block d) i ((i, t), []) = None -> block (S d) ((i, t) :: l :: r) = None.
Proof.
  intros T K E N. cbn [block]. rewrite T, K. cbn [List.length groups span]. rewrite E. cbn [fst snd traverse].
  match goal with |- option_map _ (match ?x with _ => _ end) = _ => assert (M : x = None) by exact N; rewrite M end. reflexivity.
Qed.
(** A description that cannot be read makes the whole text unreadable. *)
Lemma unreadable_job job na dims nq nm vols ens q s w fr : all_chars line_char job = true ->
  (forall d, map_entry (block d) 0 ((0, "job: " +++ job), []) = None) ->
  yaml_of (join_lines (doc_lines job na dims nq nm vols ens q s w fr)) = None.
Proof.
  intros HJ HK. unfold yaml_of. rewrite content_doc by exact HJ. unfold g_doc. match goal with |- context [map flat (_ :: ?g)] => set (gs := g) end.
  assert (X : exists u r, List.concat (map flat gs) = (0, u) :: r /\ is_item u = false) by (unfold gs; eexists; eexists; split; [cbn [map List.concat flat fst snd app]; reflexivity|reflexivity]).
  clearbody gs. destruct X as (u & r & X & Nu). cbn [map List.concat flat fst snd app]. rewrite X.
  apply (first_none 29 0 ("job: " +++ job) ("job", " " +++ job) (0, u) r eq_refl eq_refl); [unfold in_entry; cbn [fst snd Nat.ltb Nat.leb Nat.eqb orb andb]; exact Nu|apply HK].
Qed.
Lemma job_colon job d : (exists a r, job = String a r /\ is_letter a = true) -> colon "" (strip job) <> None -> map_entry (block d) 0 ((0, "job: " +++ job), []) = None.
Proof.
  intros (a & r & -> & L) C. pose proof (letter_ok a) as K. rewrite L in K. cbn [negb orb] in K. apply negb_true_iff in K.
  do 5 (apply orb_false_elim in K; destruct K as (K & ?)).
  assert (E : strip (" " +++ String a r) = String a (rstrip r)).
  { unfold strip. cbn [append lstrip]. change (is_space " ") with true. cbv iota. rewrite K. cbn [rstrip all_space]. now rewrite K. }
  assert (E' : strip (String a r) = String a (rstrip r)).
  { unfold strip. cbn [lstrip]. rewrite K. cbn [rstrip all_space]. now rewrite K. }
  assert (I0 : inline (" " +++ String a r) = None).
  { rewrite (inline_word _ _ E); [|intros q Q; injection Q as -> _; discriminate]. unfold scalar. rewrite E' in C.
    assert (TS : take_sign (String a (rstrip r)) = (false, String a (rstrip r))) by (unfold take_sign; now rewrite H2, H1).
    assert (TD : take_digits (String a (rstrip r)) = ("", String a (rstrip r))) by (cbn [take_digits]; now rewrite H3).
    unfold int_scalar. rewrite TS. unfold all_digits. rewrite TD. cbn [andb]. unfold float_form. rewrite TS, TD.
    destruct (colon "" (String a (rstrip r))) as [kv|]; [|contradiction]. now destruct (is_letter a && negb _)%bool. }
  unfold map_entry. change (is_item ("job: " +++ String a r)) with false. cbn [Nat.eqb andb negb].
  change (colon "" ("job: " +++ String a r)) with (Some ("job", " " +++ String a r)). cbv iota beta. rewrite strip_not_empty, I0; [reflexivity|].
  exists a, r. split; [|exact K]. cbn [append lstrip]. change (is_space " ") with true. cbv iota. now rewrite K.
Qed.
Lemma job_plain job d : plain job -> map_entry (block d) 0 ((0, "job: " +++ job), []) = Some ("job", YStr (strip job)).
Proof.
  intros HJ. apply (entry_value _ 0 ("job: " +++ job) "job" (" " +++ job) (YStr (strip job)) eq_refl eq_refl); [|apply inline_plain, HJ].
  apply strip_not_empty. destruct HJ as ((a & r & -> & L) & _). exists a, r. pose proof (letter_ok a) as K. rewrite L in K. cbn [negb orb] in K.
  apply negb_true_iff in K. do 5 (apply orb_false_elim in K; destruct K as (K & _)). split; [|exact K]. cbn [append lstrip]. change (is_space " ") with true. cbv iota. now rewrite K.
Qed.
Lemma job_empty d : map_entry (block (S d)) 0 ((0, "job: " +++ ""), []) = Some ("job", YNull).
Proof. reflexivity. Qed.
Lemma job_int z d : map_entry (block d) 0 ((0, "job: " +++ int_text z), []) = Some ("job", YInt z).
Proof.
  apply (entry_value _ 0 ("job: " +++ int_text z) "job" (" " +++ int_text z) _ eq_refl eq_refl); rewrite <- (append_nil (int_text _)); [now apply int_not_empty|now apply inline_int].
Qed.
