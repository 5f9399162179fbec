(** Quasi-harmonic input documents: C41, C42. *)
From Coq Require Import Reals String Ascii List Bool Arith ZArith Lia Lra.
From Verif Require Import Py DecimalModel QhaReaderModel.
Import ListNotations.
Open Scope string_scope.
Open Scope list_scope.
Open Scope nat_scope.

(** ** C41 *)
Definition present (m : list (string * yaml)) (k : string) : Prop := In k (List.map fst m).
Definition three : list string := ["volume"; "energy"; "phonon"].
Lemma contains_map m k : contains k (YMap m) = Some true /\ present m k \/ contains k (YMap m) = Some false /\ ~ present m k.
Proof.
  unfold contains, present. destruct (existsb (fun p => String.eqb k (fst p)) m) eqn:E; [left|right]; split; try reflexivity.
  - apply existsb_exists in E. destruct E as ((q, v) & I & E). apply String.eqb_eq in E. simpl in E. subst k. apply in_map_iff. exists (q, v). auto.
  - intros I. apply in_map_iff in I. destruct I as ((q, v) & <- & I). assert (X : existsb (fun p => String.eqb q (fst p)) m = true).
    { apply existsb_exists. exists (q, v). split; [exact I|apply String.eqb_refl]. } simpl in *. congruence.
Qed.
(** The message for a mapping: the first missing section. *)
Definition first_missing (m : list (string * yaml)) (msg : string) : Prop :=
  (~ present m "volume" /\ msg = "No volume values in input file") \/
  (present m "volume" /\ ~ present m "energy" /\ msg = "No energy values in input file") \/
  (present m "volume" /\ present m "energy" /\ ~ present m "phonon" /\ msg = "No phonon data in input file").
Theorem C41_mapping m : exists r, load (Parsed (YMap m)) = Ok r /\ contents r = Some (YMap m) /\
  (completed r = true <-> forall k, In k three -> present m k) /\
  (completed r = true -> error r = None) /\
  (completed r = false -> exists msg, error r = Some msg /\ first_missing m msg).
Proof.
  unfold load, first_missing. cbn [after_parse contents check_sections sections].
  destruct (contains_map m "volume") as [(-> & H1)|(-> & H1)].
  - destruct (contains_map m "energy") as [(-> & H2)|(-> & H2)].
    + destruct (contains_map m "phonon") as [(-> & H3)|(-> & H3)]; eexists; repeat split; try discriminate; cbn [completed error contents].
      * intros _ k [<-|[<-|[<-|[]]]]; assumption.
      * intros A. exfalso. apply H3, A. simpl. auto.
      * intros _. eexists. split; [reflexivity|]. right. right. auto.
    + eexists; repeat split; try discriminate; cbn [completed error contents].
      * intros A. exfalso. apply H2, A. simpl. auto.
      * intros _. eexists. split; [reflexivity|]. right. left. auto.
  - eexists; repeat split; try discriminate; cbn [completed error contents].
    + intros A. exfalso. apply H1, A. simpl. auto.
    + intros _. eexists. split; [reflexivity|]. left. auto.
Qed.
(** Never both accepted and in error, whatever the document. *)
Lemma check_error y l r : error r = None -> completed r = false ->
  match check_sections y l r with Ok r' => completed r' = true -> error r' = None | Raises _ => True end.
Proof.
  intros E C. induction l as [|(w, msg) t IH]; cbn [check_sections]; [auto|]. destruct (contains w y) as [[]|]; [exact IH|cbn; congruence|exact I].
Qed.
Lemma check_contents y l r : match check_sections y l r with Ok r' => contents r' = contents r | Raises _ => True end.
Proof. induction l as [|(w, msg) t IH]; cbn [check_sections]; [reflexivity|]. destruct (contains w y) as [[]|]; [exact IH|reflexivity|exact I]. Qed.
Theorem C41_accepted_has_no_error p r : load p = Ok r -> completed r = true -> error r = None /\ exists y, p = Parsed y /\ contents r = Some y.
Proof.
  unfold load. destruct p as [y|[(a, b)|]|]; cbn [after_parse contents]; try (intros E; injection E as <-; discriminate).
  assert (X : forall r0, error r0 = None -> completed r0 = false -> contents r0 = Some y ->
     check_sections y sections r0 = Ok r -> completed r = true -> error r = None /\ exists y', Parsed y = Parsed y' /\ contents r = Some y').
  { intros r0 E0 C0 K0 E C. pose proof (check_error y sections r0 E0 C0) as H. pose proof (check_contents y sections r0) as G. rewrite E in H, G.
    split; [exact (H C)|]. exists y. split; [reflexivity|congruence]. }
  destruct y; cbn [contents]; try (intros E; injection E as <-; discriminate); intros E C; eapply X; try exact E; try exact C; reflexivity.
Qed.
(** A file the YAML parser refuses is reported by both calculators. *)
Theorem C41_parse_failure p : (forall y, p <> Parsed y) ->
  exists msg, qha_read_input p = Ok (Some msg, None) /\ ha_read_input p = Ok (Some msg, None).
Proof.
  intros H. destruct p as [y|[(a, b)|]|]; [destruct (H y eq_refl)|..]; eexists; split; reflexivity.
Qed.
(** A missing section is reported by both calculators. *)
Theorem C41_missing_section_reported m : (exists k, In k three /\ ~ present m k) ->
  exists msg, qha_read_input (Parsed (YMap m)) = Ok (Some msg, None) /\ ha_read_input (Parsed (YMap m)) = Ok (Some msg, None) /\ first_missing m msg.
Proof.
  intros (k & I & N). destruct (C41_mapping m) as (r & E & _ & C & _ & F). destruct (completed r) eqn:D.
  - exfalso. apply N, (proj1 C eq_refl k I).
  - destruct (F eq_refl) as (msg & Em & M). exists msg. unfold qha_read_input, ha_read_input. rewrite E. cbn [bind]. rewrite D, Em. auto.
Qed.
(** An empty document is neither accepted nor reported: both calculators go on
    with no error and no input. *)
Theorem C41_empty_document_refuted :
  (exists r, load (Parsed YNull) = Ok r /\ completed r = false /\ error r = None) /\
  qha_read_input (Parsed YNull) = Ok (None, None) /\ ha_read_input (Parsed YNull) = Ok (None, None).
Proof. split; [eexists; split; [reflexivity|split; reflexivity]|split; reflexivity]. Qed.
(** A plain sentence containing the three words is accepted by the reader. *)
Theorem C41_sentence_accepted_refuted s : Forall (fun k => is_substring k s = true) three ->
  (exists r, load (Parsed (YStr s)) = Ok r /\ completed r = true) /\
  qha_read_input (Parsed (YStr s)) = Raises "TypeError".
Proof.
  intros H. inversion H as [|? ? H1 H']; subst. inversion H' as [|? ? H2 H'']; subst. inversion H'' as [|? ? H3 _]; subst.
  unfold qha_read_input, load. cbn [after_parse contents check_sections sections contains]. rewrite H1, H2, H3.
  split; [eexists; split; reflexivity|]. reflexivity.
Qed.
(** Quasi-harmonic input is refused below four volumes; the harmonic one is not. *)
Theorem C41_four_volumes m l : (forall k, In k three -> present m k) -> volume (YMap m) = Ok (Array l) ->
  (List.length l < 4 -> qha_read_input (Parsed (YMap m)) = Ok (Some E_volumes, None)) /\
  (4 <= List.length l -> exists r, qha_read_input (Parsed (YMap m)) = Ok (None, Some r) /\ contents r = Some (YMap m)) /\
  exists r, ha_read_input (Parsed (YMap m)) = Ok (None, Some r) /\ contents r = Some (YMap m).
Proof.
  intros A V. destruct (C41_mapping m) as (r & E & K & C & _ & _). apply C in A.
  unfold qha_read_input, ha_read_input. rewrite E. cbn [bind]. rewrite A. cbn [negb]. rewrite K, V. cbn [bind].
  repeat split.
  - intros L. apply Nat.ltb_lt in L. now rewrite L.
  - intros L. apply Nat.ltb_ge in L. rewrite L. eauto.
  - eauto.
Qed.
(** A single unbracketed volume is not reported as too few: TypeError. *)
Theorem C41_scalar_volume_refuted m x : (forall k, In k three -> present m k) -> volume (YMap m) = Ok (Scalar x) ->
  qha_read_input (Parsed (YMap m)) = Raises "TypeError".
Proof.
  intros A V. destruct (C41_mapping m) as (r & E & K & C & _ & _). apply C in A.
  unfold qha_read_input. rewrite E. cbn [bind]. rewrite A. cbn [negb]. rewrite K, V. reflexivity.
Qed.

(** ** C42 *)
(** The two documented ways to write an array of numbers: [x, y, z] and the
    comma-less [x y z] (one string). *)
Lemma all_some_map {A B} (f : A -> option B) l xs : Forall2 (fun a x => f a = Some x) l xs -> all_some (List.map f l) = Some xs.
Proof. induction 1 as [|a x l xs H F IH]; [reflexivity|]. cbn [List.map all_some]. now rewrite H, IH. Qed.
Theorem C42_list_forms xs text :
  Forall2 (fun t x => parse_float t = Some (Num x)) (split text) xs -> (2 <= List.length xs)%nat -> parse_float (strip text) = None ->
  get_float (YList (List.map YNum xs)) = Ok (Array (List.map Num xs)) /\
  get_float (YList [YStr text]) = Ok (Array (List.map Num xs)).
Proof.
  intros F L N. split.
  - unfold get_float. rewrite (all_some_map element _ (List.map Num xs)); [reflexivity|].
    clear. induction xs; constructor; auto.
  - unfold get_float. cbn [List.map element all_some]. rewrite N. unfold words.
    rewrite (all_some_map parse_float _ (List.map Num xs)); [reflexivity|].
    clear - F. induction F; constructor; auto.
Qed.
(** The same numbers without brackets are read as their first character only. *)
Theorem C42_unbracketed_refuted a rest x : parse_float (strip (String a rest)) = None -> is_space a = false ->
  parse_float (String a EmptyString) = Some x -> get_float (YStr (String a rest)) = Ok (Array [x]).
Proof.
  intros N S P. unfold get_float. rewrite N. unfold words, split. cbn [split_aux]. rewrite S. cbn [append List.map]. rewrite P. reflexivity.
Qed.

(** A document of consistent shape: it says nq, na, nv, lists for each of the
    q-points 3*na bands with nv frequencies each and a weight. qs' may be
    shorter than nq (rest missing). *)
Definition band_lists (nv : nat) (b : yaml) (f : nat -> fl) : Prop :=
  exists t l, get "frequency" b = Ok t /\ get_float t = Ok (Array l) /\ List.length l = nv /\ forall k, (k < nv)%nat -> nth k l NaN = f k.
Definition qpoint_lists (nm nv : nat) (q : yaml) (f : nat -> nat -> fl) (w : fl) : Prop :=
  exists bs t, get "band" q = Ok (YList bs) /\ List.length bs = nm /\
    (forall j b, nth_error bs j = Some b -> band_lists nv b (f j)) /\
    get "weight" q = Ok t /\ get_float t = Ok (Scalar w).
Definition document (y : yaml) (nq na nv given : nat) (F : nat -> nat -> nat -> fl) (W : nat -> fl) : Prop :=
  get "qpoints" y = Ok (YInt (Z.of_nat nq)) /\ get "natom" y = Ok (YInt (Z.of_nat na)) /\
  (exists l, volume y = Ok (Array l) /\ List.length l = nv) /\
  exists qs, get "phonon" y = Ok (YList qs) /\ List.length qs = given /\
    forall i q, nth_error qs i = Some q -> qpoint_lists (na * 3) nv q (F i) (W i).
Lemma bands_ok nq nm nv i j bs m f : (i < nq)%nat -> (j + List.length bs <= nm)%nat ->
  (forall k b, nth_error bs k = Some b -> band_lists nv b (f (j + k))) ->
  exists m', bands nq nm nv i j bs m = Ok m' /\
    forall a b c, (c < nv)%nat -> m' a b c = if ((a =? i) && (j <=? b) && (b <? j + List.length bs))%nat then f b c else m a b c.
Proof.
  intros Hi. revert j m. induction bs as [|b bs IH]; intros j m L H; cbn [bands].
  - exists m. split; [reflexivity|]. intros a b c _. cbn [List.length]. rewrite Nat.add_0_r.
    destruct (a =? i); cbn [andb]; [|reflexivity]. destruct (Nat.leb_spec j b), (Nat.ltb_spec b j); try reflexivity; lia.
  - destruct (H 0 b eq_refl) as (t & l & G & V & Ll & N). rewrite G. cbn [bind]. rewrite V. cbn [bind]. unfold assign.
    cbn [List.length] in L. destruct (Nat.leb_spec nq i); [lia|]. destruct (Nat.leb_spec nm j); [lia|]. cbn [orb].
    rewrite (proj2 (Nat.eqb_eq _ _) Ll). cbn [bind].
    match goal with |- exists _, bands _ _ _ _ _ _ ?m0 = _ /\ _ => destruct (IH (S j) m0) as (m' & E & P) end.
    + lia.
    + intros k b' Hk. replace (S j + k) with (j + S k) by lia. apply H. exact Hk.
    + exists m'. split; [exact E|]. intros a b' c Hc. rewrite P by exact Hc. cbn [List.length].
      rewrite Nat.add_0_r in N. destruct (Nat.eqb_spec a i) as [->|]; cbn [andb]; [|reflexivity].
      destruct (Nat.eqb_spec b' j) as [->|Nj].
      * destruct (Nat.leb_spec (S j) j); [lia|]. destruct (Nat.leb_spec j j); [|lia]. destruct (Nat.ltb_spec j (j + S (List.length bs))); [|lia].
        cbn [andb]. apply N, Hc.
      * destruct (Nat.leb_spec (S j) b'), (Nat.leb_spec j b'); try lia; cbn [andb]; try reflexivity.
        destruct (Nat.ltb_spec b' (S j + List.length bs)), (Nat.ltb_spec b' (j + S (List.length bs))); try lia; reflexivity.
Qed.
Lemma phonons_ok nq nm nv i qs m F W : (i + List.length qs <= nq)%nat ->
  (forall k q, nth_error qs k = Some q -> qpoint_lists nm nv q (F (i + k)) (W (i + k))) ->
  exists m', phonons nq nm nv i qs m = Ok m' /\
    forall a b c, (b < nm)%nat -> (c < nv)%nat -> m' a b c = if ((i <=? a) && (a <? i + List.length qs))%nat then F a b c else m a b c.
Proof.
  revert i m. induction qs as [|q qs IH]; intros i m L H; cbn [phonons].
  - exists m. split; [reflexivity|]. intros a b c _ _. cbn [List.length]. rewrite Nat.add_0_r.
    destruct (Nat.leb_spec i a), (Nat.ltb_spec a i); try reflexivity; lia.
  - destruct (H 0 q eq_refl) as (bs & t & G & Lb & B & _). rewrite G. cbn [bind elements]. cbn [List.length] in L.
    destruct (bands_ok nq nm nv i 0 bs m (F i)) as (m1 & E1 & P1); [lia|lia|intros k b Hk; rewrite <- (Nat.add_0_r i); apply (B k b Hk)|].
    rewrite E1. cbn [bind]. destruct (IH (S i) m1) as (m' & E & P).
    + lia.
    + intros k q' Hk. replace (S i + k) with (i + S k) by lia. apply H. exact Hk.
    + exists m'. split; [exact E|]. intros a b c Hb Hc. rewrite P by assumption. rewrite P1 by assumption. cbn [List.length].
      destruct (Nat.leb_spec (S i) a), (Nat.leb_spec i a); try lia; cbn [andb].
      * destruct (Nat.ltb_spec a (S i + List.length qs)), (Nat.ltb_spec a (i + S (List.length qs))); try lia; [reflexivity|].
        destruct (Nat.eqb_spec a i); [lia|]. reflexivity.
      * assert (a = i) by lia. subst a. rewrite Nat.eqb_refl. cbn [andb]. change (0 <=? b) with true. cbn [andb].
        destruct (Nat.ltb_spec b (0 + List.length bs)); [|lia]. destruct (Nat.ltb_spec i (i + S (List.length qs))); [reflexivity|lia].
      * destruct (Nat.eqb_spec a i); [lia|]. reflexivity.
Qed.
Lemma get_int_nat n : get_int (YInt (Z.of_nat n)) = Ok n.
Proof. unfold get_int. destruct (Z.ltb_spec (Z.of_nat n) 0); [lia|]. now rewrite Nat2Z.id. Qed.
(** Entry (q, mode, volume) is the frequency listed; q-points announced but not
    listed are filled with zero frequencies. *)
Theorem C42_frequencies y nq na nv given F W : document y nq na nv given F W -> (given <= nq)%nat ->
  exists m, frequencies y = Ok m /\
    forall i j k, (j < na * 3)%nat -> (k < nv)%nat ->
      ((i < given)%nat -> m i j k = F i j k) /\ ((given <= i)%nat -> m i j k = Num 0).
Proof.
  intros (Q & N & (l & V & Ll) & qs & P & Lq & H) G. unfold frequencies, qpoints, natoms, nvol.
  rewrite Q. cbn [bind]. rewrite get_int_nat. cbn [bind]. rewrite N. cbn [bind]. rewrite get_int_nat. cbn [bind].
  rewrite V. cbn [bind]. rewrite Ll, P. cbn [bind elements].
  destruct (phonons_ok nq (na * 3) nv 0 qs zeros3 F W) as (m & E & M); [simpl; lia|exact H|].
  exists m. split; [exact E|]. intros i j k Hj Hk. rewrite M by assumption. change (0 <=? i) with true. cbn [andb]. simpl Nat.add. rewrite Lq.
  split; intros Hi; destruct (Nat.ltb_spec i given); try lia; reflexivity.
Qed.
(** More q-points than announced: IndexError. *)
Theorem C42_too_many_qpoints y nq na nv given F W : document y nq na nv given F W -> (nq < given)%nat -> (0 < na)%nat ->
  frequencies y = Raises "IndexError".
Proof.
  intros (Q & N & (l & V & Ll) & qs & P & Lq & H) G NA. unfold frequencies, qpoints, natoms, nvol.
  rewrite Q. cbn [bind]. rewrite get_int_nat. cbn [bind]. rewrite N. cbn [bind]. rewrite get_int_nat. cbn [bind].
  rewrite V. cbn [bind]. rewrite Ll, P. cbn [bind elements].
  assert (X : forall qs i m, (forall k q, nth_error qs k = Some q -> qpoint_lists (na * 3) nv q (F (i + k)) (W (i + k))) ->
     (i <= nq)%nat -> (nq < i + List.length qs)%nat -> phonons nq (na * 3) nv i qs m = Raises "IndexError").
  { clear - NA. induction qs as [|q qs IH]; intros i m H Hi L; cbn [List.length] in L; [lia|]. cbn [phonons].
    destruct (H 0 q eq_refl) as (bs & t & G & Lb & B & _). rewrite G. cbn [bind elements].
    destruct (Nat.eq_dec i nq) as [->|Ni].
    - destruct bs as [|b bs]; [simpl in Lb; lia|]. cbn [bands]. destruct (B 0 b eq_refl) as (f & l & G' & V & _). rewrite G'. cbn [bind]. rewrite V. cbn [bind].
      unfold assign. rewrite Nat.leb_refl. reflexivity.
    - destruct (bands_ok nq (na * 3) nv i 0 bs m (F i)) as (m1 & E1 & _); [lia|lia|intros k b Hk; rewrite <- (Nat.add_0_r i); apply (B k b Hk)|].
      rewrite E1. cbn [bind]. apply IH; [|lia|lia]. intros k q' Hk. replace (S i + k) with (i + S k) by lia. apply H. exact Hk. }
  apply X; [exact H|lia|lia].
Qed.
Lemma fill_ok nq i qs w nm nv F W : (i + List.length qs <= nq)%nat ->
  (forall k q, nth_error qs k = Some q -> qpoint_lists nm nv q (F (i + k)) (W (i + k))) ->
  exists w', fill_weights nq i qs w = Ok w' /\ forall a, w' a = if ((i <=? a) && (a <? i + List.length qs))%nat then W a else w a.
Proof.
  revert i w. induction qs as [|q qs IH]; intros i w L H; cbn [fill_weights].
  - exists w. split; [reflexivity|]. intros a. cbn [List.length]. rewrite Nat.add_0_r.
    destruct (Nat.leb_spec i a), (Nat.ltb_spec a i); try reflexivity; lia.
  - destruct (H 0 q eq_refl) as (bs & t & _ & _ & _ & G & V). rewrite G. cbn [bind]. rewrite V. cbn [bind]. cbn [List.length] in L.
    destruct (Nat.leb_spec nq i); [lia|].
    match goal with |- exists _, fill_weights _ _ _ ?w0 = _ /\ _ => destruct (IH (S i) w0) as (w' & E & P) end.
    + lia.
    + intros k q' Hk. replace (S i + k) with (i + S k) by lia. apply H. exact Hk.
    + exists w'. split; [exact E|]. intros a. rewrite P. cbn [List.length].
      destruct (Nat.leb_spec (S i) a), (Nat.leb_spec i a); try lia; cbn [andb].
      * destruct (Nat.ltb_spec a (S i + List.length qs)), (Nat.ltb_spec a (i + S (List.length qs))); try lia; [reflexivity|].
        destruct (Nat.eqb_spec a i); [lia|]. reflexivity.
      * assert (a = i) by lia. subst a. rewrite Nat.eqb_refl, Nat.add_0_r. destruct (Nat.ltb_spec i (i + S (List.length qs))); [reflexivity|lia].
      * destruct (Nat.eqb_spec a i); [lia|]. reflexivity.
Qed.
Fixpoint sum_to (n : nat) (w : nat -> R) : R := match n with O => 0 | S n => sum_to n w + w n end%R.
Lemma fold_sum n (v : nat -> fl) (w : nat -> R) : (forall i, (i < n)%nat -> v i = Num (w i)) ->
  fold_left fadd (List.map v (seq 0 n)) (Num 0) = Num (sum_to n w).
Proof.
  induction n as [|n IH]; intros H; [reflexivity|]. rewrite seq_S, map_app, fold_left_app, IH by (intros; apply H; lia).
  cbn [List.map fold_left Nat.add]. rewrite H by lia. reflexivity.
Qed.
(** The weights are those listed (zero for missing q-points) and the reported
    total is their sum, so that weight/total sums to one over the q-points. *)
Theorem C42_weights y nq na nv given F W : document y nq na nv given F (fun i => Num (W i)) -> (given <= nq)%nat ->
  exists w, weights y = Ok w /\
    (forall i, ((i < given)%nat -> w i = Num (W i)) /\ ((given <= i)%nat -> w i = Num 0)) /\
    total_q_points y = Ok (Num (sum_to given W)) /\
    (sum_to given W <> 0%R -> sum_to given (fun i => W i / sum_to given W)%R = 1%R).
Proof.
  intros (Q & N & (l & V & Ll) & qs & P & Lq & H) G. unfold total_q_points, weights, qpoints.
  rewrite Q. cbn [bind]. rewrite get_int_nat. cbn [bind]. rewrite P. cbn [bind elements].
  destruct (fill_ok nq 0 qs (fun _ => Num 0) (na * 3) nv F (fun i => Num (W i))) as (w & E & M); [simpl; lia|exact H|].
  exists w. rewrite E. cbn [bind].
  assert (A : forall i, ((i < given)%nat -> w i = Num (W i)) /\ ((given <= i)%nat -> w i = Num 0)).
  { intros i. rewrite M. change (0 <=? i) with true. cbn [andb]. simpl Nat.add. rewrite Lq. split; intros Hi; destruct (Nat.ltb_spec i given); try lia; reflexivity. }
  split; [reflexivity|]. split; [exact A|]. split.
  - set (W' := fun i => if (i <? given)%nat then W i else 0%R).
    rewrite (fold_sum nq w W').
    + f_equal. f_equal.
      assert (S1 : forall n, (n <= given)%nat -> sum_to n W' = sum_to n W).
      { induction n; intros Hn; simpl; [reflexivity|]. rewrite IHn by lia. unfold W' at 1. destruct (Nat.ltb_spec n given); [reflexivity|lia]. }
      assert (S2 : forall k, sum_to (given + k) W' = sum_to given W).
      { induction k; [rewrite Nat.add_0_r; apply S1; lia|]. rewrite Nat.add_succ_r. simpl. rewrite IHk. unfold W'. destruct (Nat.ltb_spec (given + k) given); [lia|]. lra. }
      replace nq with (given + (nq - given)) by lia. apply S2.
    + intros i Hi. unfold W'. destruct (Nat.ltb_spec i given); apply A; assumption.
  - intros Z. set (t := sum_to given W) in *.
    assert (S1 : forall n, sum_to n (fun i => W i / t)%R = (sum_to n W / t)%R).
    { induction n; simpl; [field; exact Z|]. rewrite IHn. field. exact Z. }
    rewrite S1. fold t. field. exact Z.
Qed.
(** The job name: trailing blanks dropped, "Unknown" if there is none. *)
Definition ends_in_blank (s : string) : Prop := exists u a, is_space a = true /\ s = String.append u (String a EmptyString).
Lemma rstrip_spec s : exists b, s = String.append (rstrip s) b /\ all_space b = true /\ ~ ends_in_blank (rstrip s).
Proof.
  induction s as [|a s (b & E & B & N)].
  - exists EmptyString. split; [reflexivity|]. split; [reflexivity|]. intros (u & a & _ & X). destruct u; discriminate.
  - cbn [rstrip]. destruct (all_space (String a s)) eqn:S.
    + exists (String a s). split; [reflexivity|]. split; [exact S|]. intros (u & c & _ & X). destruct u; discriminate.
    + exists b. split; [cbn [String.append]; f_equal; exact E|]. split; [exact B|]. intros (u & c & C & X). destruct u as [|d u]; cbn [String.append] in X.
      * injection X as -> X. rewrite X in E. cbn in E. subst b. cbn [all_space] in S. rewrite C, B in S. discriminate.
      * injection X as -> X. apply N. exists u, c. split; assumption.
Qed.
Theorem C41_job_name m :
  (~ present m "job" -> jobname (YMap m) = Ok "Unknown") /\
  (forall s, find (fun p => String.eqb "job" (fst p)) m = Some ("job", YStr s) ->
    exists n b, jobname (YMap m) = Ok n /\ s = String.append n b /\ all_space b = true /\ ~ ends_in_blank n).
Proof.
  unfold jobname, get, present. split.
  - intros N. destruct (find _ m) as [(k, v)|] eqn:F; [|reflexivity]. exfalso. apply find_some in F as (I & Q). apply String.eqb_eq in Q. cbn in Q. subst k.
    apply N. apply in_map_iff. now exists ("job", v).
  - intros s F. rewrite F. destruct (rstrip_spec s) as (b & E & B & N). exists (rstrip s), b. auto.
Qed.
(** A concrete document: one q-point, one atom, two volumes. *)
Definition small : yaml := YMap
  [("job", YStr "MgO "); ("natom", YInt 1); ("qpoints", YInt 1); ("volume", YList [YStr "18.5 19.0"]); ("energy", YList [YNum (-1); YNum (-2)]);
   ("phonon", YList [YMap [("weight", YInt 1); ("band", YList
      [YMap [("frequency", YList [YInt 0; YInt 0])]; YMap [("frequency", YList [YInt 100; YInt 90])]; YMap [("frequency", YList [YInt 300; YInt 280])]])]])].
Example C42_instance : exists F, document small 1 1 2 1 F (fun _ => Num 1) /\ F 0%nat 2%nat 1%nat = Num 280 /\ jobname small = Ok "MgO".
Proof.
  exists (fun _ j k => Num (nth k (nth j [[0; 0]; [100; 90]; [300; 280]] []) 0))%R.
  split; [|split; reflexivity]. split; [reflexivity|]. split; [reflexivity|]. split; [eexists; split; reflexivity|].
  eexists. split; [reflexivity|]. split; [reflexivity|]. intros [|i] q E; [|destruct i; discriminate]. injection E as <-.
  eexists. eexists. split; [reflexivity|]. split; [reflexivity|]. split; [|split; reflexivity].
  intros [|[|[|j]]] b E; try (destruct j; discriminate); injection E as <-; eexists; eexists;
  (split; [reflexivity|]; split; [reflexivity|]; split; [reflexivity|]); intros [|[|k]] Hk; try lia; reflexivity.
Qed.
Example C41_instance : qha_read_input (Parsed small) = Ok (Some E_volumes, None) /\
  Forall (fun k => is_substring k "volume energy phonon" = true) three /\ get_float (YStr "1.5 2.5") = Ok (Array [literal false "1" "" 0]).
Proof. split; [reflexivity|]. split; [repeat constructor|reflexivity]. Qed.

Print Assumptions C41_mapping.
Print Assumptions C41_accepted_has_no_error.
Print Assumptions C41_parse_failure.
Print Assumptions C41_missing_section_reported.
Print Assumptions C41_empty_document_refuted.
Print Assumptions C41_sentence_accepted_refuted.
Print Assumptions C41_four_volumes.
Print Assumptions C41_scalar_volume_refuted.
Print Assumptions C42_list_forms.
Print Assumptions C42_unbracketed_refuted.
Print Assumptions C42_frequencies.
Print Assumptions C42_too_many_qpoints.
Print Assumptions C42_weights.
Print Assumptions C41_job_name.
