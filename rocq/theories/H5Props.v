(** C90: result files read and exported through the general reader. *)
From Coq Require Import Reals String Ascii List Bool Arith ZArith Lia Lra Permutation Sorting.Sorted.
From Verif Require Import Py DecimalModel DecimalProofs FormatModel FormatProofs YamlSpec QhaWriterProofs ThermoModel TableModel TableProofs TableProps QhaRunModel StoreModel SoecTableModel SeismicTableProps H5Model.
Import ListNotations.
Open Scope string_scope.
Open Scope list_scope.
Open Scope nat_scope.

(** * The reader *)
Definition unique (f : result_file) : Prop := NoDup (map fst (named f)).
Lemma find_none {A} k (l : list (string * A)) : ~ In k (map fst l) -> find k l = None.
Proof.
  induction l as [|(k', a) l IH]; intros H; [reflexivity|]. cbn [find]. destruct (String.eqb_spec k k') as [->|N]; [destruct H; now left|].
  apply IH. intros I. apply H. now right.
Qed.
Lemma find_in {A} k (a : A) l : NoDup (map fst l) -> In (k, a) l -> find k l = Some a.
Proof.
  induction l as [|(k', b) l IH]; intros N I; [destruct I|]. cbn [map fst] in N. inversion N as [|? ? N1 N2]; subst. cbn [find].
  destruct I as [E|I]; [injection E as -> ->; now rewrite String.eqb_refl|].
  destruct (String.eqb_spec k k') as [->|_]; [|now apply IH]. destruct N1. apply (in_map fst) in I. exact I.
Qed.
Lemma find_some {A} k (a : A) l : find k l = Some a -> In (k, a) l.
Proof.
  induction l as [|(k', b) l IH]; intros E; [discriminate|]. cbn [find] in E. destruct (String.eqb_spec k k') as [->|_]; [injection E as ->; now left|right; now apply IH].
Qed.
(** A stored array is handed over as it is; a missing one is answered with a text
    naming it, and never with an exception. *)
Theorem C90_data f key :
  unique f ->
  (forall d, In (key, d) (named f) -> get_data f key = Whole (content d) /\ has_data f key = Yes) /\
  (~ In key (map fst (named f)) -> get_data f key = Text ("Dataset '" +++ key +++ "' not found") /\ has_data f key = Text ("Dataset '" +++ key +++ "' not found")).
Proof.
  intros U. split.
  - intros d I. unfold get_data, has_data, has_dataset. rewrite (find_in _ _ _ U I). now split.
  - intros I. unfold get_data, has_data, has_dataset. rewrite (find_none _ _ I). now split.
Qed.
Lemma place_in i n : i < n -> place (Z.of_nat i) n = Some i /\ place (Z.of_nat i - Z.of_nat n) n = Some i.
Proof.
  intros H. unfold place. split.
  - destruct (Z.ltb_spec (Z.of_nat i) 0) as [|_]; [lia|]. destruct (Z.leb_spec 0 (Z.of_nat i)) as [_|]; [|lia].
    destruct (Z.ltb_spec (Z.of_nat i) (Z.of_nat n)) as [_|]; [|lia]. cbn [andb]. now rewrite Nat2Z.id.
  - destruct (Z.ltb_spec (Z.of_nat i - Z.of_nat n) 0) as [_|]; [|lia]. replace (Z.of_nat n + (Z.of_nat i - Z.of_nat n))%Z with (Z.of_nat i) by lia.
    destruct (Z.leb_spec 0 (Z.of_nat i)) as [_|]; [|lia]. destruct (Z.ltb_spec (Z.of_nat i) (Z.of_nat n)) as [_|]; [|lia]. cbn [andb]. now rewrite Nat2Z.id.
Qed.
Lemma place_out i n : (i < - Z.of_nat n \/ Z.of_nat n <= i)%Z -> place i n = None.
Proof.
  intros H. unfold place. destruct (Z.ltb_spec i 0) as [N|N].
  - destruct (Z.leb_spec 0 (Z.of_nat n + i)) as [|_]; [lia|reflexivity].
  - destruct (Z.ltb_spec i (Z.of_nat n)) as [|_]; [lia|]. now rewrite andb_false_r.
Qed.
(** Rows and columns are those of the stored matrix, counted from 0 or, with a
    negative number, from the end. *)
Theorem C90_rows oor f key d m n c : unique f -> In (key, d) (named f) -> content d = Mat m -> List.length m = n -> Forall (fun r => List.length r = c) m ->
  (forall i, i < n -> get_data_row oor f key (Z.of_nat i) = Line (nth i m []) /\ get_data_row oor f key (Z.of_nat i - Z.of_nat n) = Line (nth i m [])) /\
  (0 < n -> forall j, j < c -> exists v, get_data_column oor f key (Z.of_nat j) = Line v /\ get_data_column oor f key (Z.of_nat j - Z.of_nat c) = Line v /\
     List.length v = n /\ forall i, i < n -> nth i v 0%R = nth j (nth i m []) 0%R).
Proof.
  intros U I E L Fc. split.
  - intros i H. unfold get_data_row. rewrite (find_in _ _ _ U I), E, L. destruct (place_in i n H) as (-> & ->). now split.
  - intros N j H. unfold get_data_column. rewrite (find_in _ _ _ U I), E.
    assert (W : List.length (hd [] m) = c) by (destruct m as [|r m]; [cbn in L; lia|now inversion Fc]). rewrite W.
    destruct (place_in j c H) as (-> & ->). eexists. split; [reflexivity|]. split; [reflexivity|]. split; [now rewrite map_length|].
    intros i Hi. rewrite (nth_indep _ 0%R ((fun r => nth j r 0%R) [])) by now rewrite map_length, L. now rewrite (map_nth (fun r => nth j r 0%R)).
Qed.
(** A number that is out of range is answered with a text by version 2 of h5py,
    and ends in an exception with version 3: *)
Theorem C90_out_of_range f key d m n c i : unique f -> In (key, d) (named f) -> content d = Mat m -> List.length m = n -> 0 < n -> Forall (fun r => List.length r = c) m ->
  ((i < - Z.of_nat n \/ Z.of_nat n <= i)%Z ->
     get_data_row "ValueError" f key i = Text ("Index " +++ int_text i +++ " not available") /\ get_data_row "IndexError" f key i = Exception "IndexError") /\
  ((i < - Z.of_nat c \/ Z.of_nat c <= i)%Z ->
     get_data_column "ValueError" f key i = Text ("Index " +++ int_text i +++ " not available") /\ get_data_column "IndexError" f key i = Exception "IndexError").
Proof.
  intros U I E L N Fc. split; intros H.
  - unfold get_data_row. rewrite (find_in _ _ _ U I), E, L, (place_out _ _ H). now split.
  - unfold get_data_column. rewrite (find_in _ _ _ U I), E.
    assert (W : List.length (hd [] m) = c) by (destruct m as [|r m]; [cbn in L; lia|now inversion Fc]). rewrite W, (place_out _ _ H). now split.
Qed.
(** An attribute that is there is handed over; a missing one, or one of a missing
    array, is a KeyError: the texts prepared for these cases are never given. *)
Theorem C90_attribute f key : unique f ->
  (forall d a v, In (key, d) (named f) -> NoDup (map fst (attributes d)) -> In (a, v) (attributes d) -> get_attribute f key a = Text v) /\
  (forall d a, In (key, d) (named f) -> ~ In a (map fst (attributes d)) -> get_attribute f key a = Exception "KeyError") /\
  (forall a, ~ In key (map fst (named f)) -> get_attribute f key a = Exception "KeyError").
Proof.
  intros U. split; [|split].
  - intros d a v I N J. unfold get_attribute, has_dataset, has_attribute. now rewrite (find_in _ _ _ U I), (find_in _ _ _ N J).
  - intros d a I J. unfold get_attribute, has_dataset, has_attribute. rewrite (find_in _ _ _ U I), (find_none _ _ J). cbn [truthy negb].
    match goal with |- context [String.eqb ?s ""] => replace (String.eqb s "") with false by reflexivity end. reflexivity.
  - intros a J. unfold get_attribute, has_dataset, has_attribute. now rewrite (find_none _ _ J).
Qed.

(** * The listing *)
Lemma insert_perm {A} (kd : string * A) l : Permutation (insert_name kd l) (kd :: l).
Proof.
  induction l as [|kd' l IH]; [apply Permutation_refl|]. cbn [insert_name]. destruct (String.leb (fst kd) (fst kd')); [apply Permutation_refl|].
  eapply perm_trans; [apply perm_skip, IH|apply perm_swap].
Qed.
Lemma by_name_perm {A} (l : list (string * A)) : Permutation (by_name l) l.
Proof. induction l as [|kd l IH]; [apply Permutation_refl|]. unfold by_name in *. cbn [fold_right]. eapply perm_trans; [apply insert_perm|now apply perm_skip]. Qed.
Definition alphabetic (a b : string) : Prop := String.leb a b = true.
Lemma leb_other a b : String.leb a b = false -> alphabetic b a.
Proof. unfold alphabetic. destruct (String.leb_total a b) as [E|E]; [now rewrite E|now rewrite E]. Qed.
Lemma insert_sorted {A} (kd : string * A) l : LocallySorted alphabetic (map fst l) -> LocallySorted alphabetic (map fst (insert_name kd l)).
Proof.
  induction l as [|kd' l IH]; intros H; cbn [insert_name map].
  - constructor.
  - destruct (String.leb (fst kd) (fst kd')) eqn:E; cbn [map]; [constructor; assumption|].
    assert (H' : LocallySorted alphabetic (map fst l)) by (inversion H; subst; [constructor|assumption]).
    specialize (IH H'). destruct l as [|kd'' l]; cbn [insert_name map] in *; [constructor; [constructor|now apply leb_other]|].
    destruct (String.leb (fst kd) (fst kd'')); cbn [map] in *; constructor; try assumption; [now apply leb_other|]. inversion H; subst. assumption.
Qed.
Lemma by_name_sorted {A} (l : list (string * A)) : LocallySorted alphabetic (map fst (by_name l)).
Proof. induction l as [|kd l IH]; [constructor|]. now apply insert_sorted. Qed.
Lemma lines_aux_nl a b : forall cur, lines_aux cur (a +++ String newline b) = lines_aux cur a ++ lines b.
Proof.
  induction a as [|x a IH]; intros cur; cbn [String.append lines_aux].
  - change (Ascii.eqb newline newline) with true. reflexivity.
  - destruct (Ascii.eqb x newline); [|apply IH]. cbn [app]. f_equal. apply IH.
Qed.
Lemma lines_nl a b : lines (a +++ String newline b) = lines a ++ lines b.
Proof. apply lines_aux_nl. Qed.
(** The listing consists of the text of the file, and of one line for each array
    in alphabetic order with its description and unit. *)
Definition described (d : stored) (desc unit : string) : Prop := attributes d = [("desc", desc); ("unit", unit)].
Theorem C90_listing f about0 : about f = Some about0 ->
  Forall (fun kd => no_newline (fst kd) /\ exists desc unit, described (snd kd) desc unit /\ no_newline desc /\ no_newline unit) (named f) ->
  exists text order body, read f = inl text /\ Permutation order (named f) /\ LocallySorted alphabetic (map fst order) /\
    lines text = lines about0 ++ "Available data:" :: body ++ [""] /\
    Forall2 (fun kd line => forall desc unit, described (snd kd) desc unit -> line = pad_left 15 (fst kd) +++ ": " +++ desc +++ " (" +++ unit +++ ")") order body.
Proof.
  intros A W. unfold read. rewrite A. eexists. exists (by_name (named f)).
  assert (W' : Forall (fun kd => no_newline (fst kd) /\ exists desc unit, described (snd kd) desc unit /\ no_newline desc /\ no_newline unit) (by_name (named f))).
  { apply Forall_forall. intros kd I. rewrite Forall_forall in W. apply W. eapply Permutation_in; [apply by_name_perm|exact I]. }
  set (order := by_name (named f)) in *.
  set (tell := fun kd : string * stored => pad_left 15 (fst kd) +++ ": " +++ concat_map attribute_text (by_name (attributes (snd kd)))).
  exists (map tell order). split; [reflexivity|]. split; [apply by_name_perm|]. split; [apply by_name_sorted|]. split.
  - change (lines (about0 +++ String newline ("Available data:" +++ String newline (concat_map entry_text order))) = lines about0 ++ "Available data:" :: map tell order ++ [""]).
    rewrite !lines_nl. f_equal. change (lines "Available data:") with ["Available data:"]. cbn [app]. f_equal.
    clear - W'. induction order as [|kd l IH]; [reflexivity|]. inversion W' as [|? ? H0 W1]; subst. cbn [concat_map fold_right map app].
    assert (E : forall k, entry_text kd +++ k = tell kd +++ String newline k).
    { intros k. unfold entry_text, tell. rewrite !append_assoc. reflexivity. }
    rewrite E, lines_nl. replace (lines (tell kd)) with [tell kd]; [cbn [app]; f_equal; now apply IH|].
    symmetry. apply (lines_join [tell kd]); [|discriminate]. constructor; [|constructor].
    destruct H0 as (H1 & d & u & Ed & H2 & H3). unfold tell. unfold described in Ed. rewrite Ed. cbn [by_name fold_right insert_name fst].
    change (String.leb "desc" "unit") with true. cbn [concat_map fold_right attribute_text fst snd].
    apply no_newline_app; [unfold pad_left; apply no_newline_app; [apply no_newline_spaces|exact H1]|].
    apply no_newline_app; [reflexivity|]. apply no_newline_app; [apply no_newline_app; [exact H2|reflexivity]|].
    apply no_newline_app; [|reflexivity]. apply no_newline_app; [reflexivity|]. now apply no_newline_app.
  - clear - W'. induction order as [|kd l IH]; [constructor|]. inversion W'; subst. constructor; [|now apply IH].
    intros d u E. unfold described in E. unfold tell. rewrite E. change (by_name [("desc", d); ("unit", u)]) with [("desc", d); ("unit", u)].
    change (concat_map attribute_text [("desc", d); ("unit", u)]) with ((d +++ " ") +++ ("(" +++ u +++ ")") +++ "").
    rewrite append_nil, (append_assoc d). reflexivity.
Qed.

Print Assumptions C90_data.
Print Assumptions C90_rows.
Print Assumptions C90_out_of_range.
Print Assumptions C90_attribute.
Print Assumptions C90_listing.
