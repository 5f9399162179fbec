(** Input documents of the (quasi-)harmonic commands: what they say, and what the
    calculators receive. Used by C95. *)
From Coq Require Import Reals String Ascii List Bool Arith ZArith Lia Lra FunctionalExtensionality.
From Flocq Require Import Core.
From Verif Require Import Py DecimalModel QhaReaderModel QhaReaderProps PhononInputModel.
From Verif Require StatMechModel StatMechSpec QhaRunModel CliModel QhaEqProps UnitsSpec FormatProofs QhaWriterModel QhaWriterProps.
Import ListNotations.
Open Scope string_scope.
Open Scope list_scope.
Open Scope nat_scope.

(** ** What a document says *)
(** The three rows of the supercell, and its determinant. *)
Definition supercell_says (y : yaml) (r1 r2 r3 : R * R * R) : Prop :=
  let row r t := exists a b c, t = YList [a; b; c] /\ let '(x, x', x'') := r in number a = Some x /\ number b = Some x' /\ number c = Some x'' in
  exists t1 t2 t3, get "supercell" y = Ok (YList [t1; t2; t3]) /\ row r1 t1 /\ row r2 t2 /\ row r3 t3.
Definition volume_ratio (r1 r2 r3 : R * R * R) : R :=
  let '(a, b, c) := r1 in let '(d, e, f) := r2 in let '(g, h, i) := r3 in
  (a * e * i + b * f * g + c * d * h - c * e * g - b * d * i - a * f * h)%R.
(** A document with a name, a supercell, volumes and energies, and for [given] of
    the [nq] q-points announced (the others are missing) a weight and at each volume
    the frequencies of the 3 na modes. *)
Record describes (y : yaml) (name : string) (na nq given : nat) (cell : (R * R * R) * (R * R * R) * (R * R * R))
    (vols ens : list R) (w : nat -> R) (F : nat -> nat -> nat -> R) : Prop := {
  said_name : jobname y = Ok name;
  said_phonons : document y nq na (List.length vols) given (fun i j k => Num (F i j k)) (fun i => Num (w i));
  said_enough : given <= nq;
  said_volumes : volume y = Ok (Array (map Num vols));
  said_energies : energy y = Ok (Array (map Num ens));
  said_cell : let '(r1, r2, r3) := cell in supercell_says y r1 r2 r3;
  said_weights : sum_to given w <> 0%R }.

(** ** What the reader gives *)
Record readable (y : yaml) (name : string) (na nq : nat) (kp : Z) (vols ens : list R) (w : nat -> R) (F : nat -> nat -> nat -> R) : Prop := {
  r_name : jobname y = Ok name;
  r_natoms : natoms y = Ok na;
  r_qpoints : QhaReaderModel.qpoints y = Ok nq;
  r_kpoints : kpoints y = Ok kp;
  r_volume : volume y = Ok (Array (map Num vols));
  r_energy : energy y = Ok (Array (map Num ens));
  r_frequencies : exists m, frequencies y = Ok m /\ forall q b k, q < nq -> b < na * 3 -> k < List.length vols -> m q b k = Num (F q b k);
  r_weights : exists u, weights y = Ok u /\ forall q, q < nq -> u q = Num (w q);
  r_total : sum_to nq w <> 0%R }.

Lemma get_mapping k y v : get k y = Ok v -> exists m, y = YMap m /\ present m k.
Proof.
  destruct y as [| | | | |m]; try (destruct k; discriminate).
  replace (get k (YMap m)) with (match List.find (fun p => String.eqb k (fst p)) m with Some (_, v) => Ok v | None => Raises "KeyError" end) by (destruct k; reflexivity). destruct (find _ m) as [[k' v']|] eqn:E; [|discriminate]. intros _. exists m. split; [reflexivity|].
  apply find_some in E as (I & E). apply String.eqb_eq in E. cbn [fst] in E. subst k'. now apply (in_map fst) in I.
Qed.
Lemma bind_get {B} k y (f : yaml -> outcome B) b : bind (get k y) f = Ok b -> exists v, get k y = Ok v.
Proof. destruct (get k y); [eauto|discriminate]. Qed.
Lemma weights_phonon y u : weights y = Ok u -> exists p, get "phonon" y = Ok p.
Proof. unfold weights. destruct (QhaReaderModel.qpoints y); [|discriminate]. cbn [bind]. intros H. exact (bind_get _ _ _ _ H). Qed.
Section Readable.
Variables (y : yaml) (name : string) (na nq : nat) (kp : Z) (vols ens : list R) (w : nat -> R) (F : nat -> nat -> nat -> R).
Hypothesis H : readable y name na nq kp vols ens w F.
Lemma readable_loads : exists r, load (Parsed y) = Ok r /\ completed r = true /\ contents r = Some y /\ error r = None.
Proof.
  destruct H as [_ _ _ _ V E _ (u & W & _) _].
  destruct (bind_get _ _ _ _ V) as (v & V'). destruct (bind_get _ _ _ _ E) as (e & E'). destruct (weights_phonon _ _ W) as (p & P').
  destruct (get_mapping _ _ _ V') as (m & -> & Pv). destruct (get_mapping _ _ _ E') as (m' & Q & Pe). injection Q as <-. destruct (get_mapping _ _ _ P') as (m' & Q & Pp). injection Q as <-.
  destruct (C41_mapping m) as (r & L & C & I & Er & _). exists r. split; [exact L|].
  assert (D : completed r = true) by (apply I; intros k [<-|[<-|[<-|[]]]]; assumption). auto.
Qed.
Lemma readable_nvol : nvol y = Ok (List.length vols).
Proof. unfold nvol. rewrite (r_volume _ _ _ _ _ _ _ _ _ H). cbn [bind]. now rewrite map_length. Qed.
Lemma readable_total : total_q_points y = Ok (Num (sum_to nq w)).
Proof.
  unfold total_q_points. rewrite (r_qpoints _ _ _ _ _ _ _ _ _ H). cbn [bind]. destruct (r_weights _ _ _ _ _ _ _ _ _ H) as (u & E & U). rewrite E. cbn [bind].
  now rewrite (fold_sum nq u w U).
Qed.
(** The values the run receives. *)
Definition same_input (x : QhaRunModel.input) : Prop :=
  QhaRunModel.nvol x = List.length vols /\
  (forall k, k < List.length vols -> QhaRunModel.volume x k = nth k vols 0%R) /\
  (forall k, k < List.length ens -> QhaRunModel.static_energy x k = nth k ens 0%R) /\
  StatMechModel.nb (QhaRunModel.frequencies x) = nq /\ StatMechModel.nf (QhaRunModel.frequencies x) = na * 3 /\ StatMechModel.nv (QhaRunModel.frequencies x) = List.length vols /\
  (forall q b k, q < nq -> b < na * 3 -> k < List.length vols -> StatMechModel.freq (QhaRunModel.frequencies x) q b k = F q b k) /\
  (forall q, q < nq -> QhaRunModel.weights x q = w q) /\ QhaRunModel.total_q_points x = sum_to nq w.
Lemma all_num l : forallb is_num (map Num l) = true.
Proof. induction l; [reflexivity|exact IHl]. Qed.
Lemma val_nth l k : val (nth k (map Num l) (Num 0)) = nth k l 0%R.
Proof. rewrite map_nth. reflexivity. Qed.
Lemma readable_input : exists x, phonon_input y = Ok (Some x) /\ same_input x.
Proof.
  pose proof readable_total as T. pose proof readable_nvol as N. destruct H as [_ Na Q _ V E (m & M & Mv) (u & W & U) Z].
  unfold phonon_input. rewrite W, T, M, Q, Na, N, V, E. cbn [bind items].
  replace (forallb is_num _ && forallb is_num _ && _ && _ && _)%bool with true.
  - eexists. split; [reflexivity|]. repeat split; cbn [QhaRunModel.nvol QhaRunModel.volume QhaRunModel.static_energy QhaRunModel.frequencies QhaRunModel.weights QhaRunModel.total_q_points StatMechModel.freq].
    + intros k _. apply val_nth.
    + intros k _. apply val_nth.
    + intros q b k Hq Hb Hk. now rewrite Mv.
    + intros q Hq. now rewrite U.
  - symmetry. rewrite !all_num. cbn [andb].
    replace (forallb (fun q => is_num (u q)) (seq 0 nq)) with true.
    2:{ symmetry. apply forallb_forall. intros q I. apply in_seq in I. rewrite U by lia. reflexivity. }
    cbn [andb]. destruct (Req_EM_T (sum_to nq w) 0); [contradiction|]. rewrite andb_true_r.
    apply forallb_forall. intros q I. apply forallb_forall. intros b J. apply forallb_forall. intros k L. apply in_seq in I, J, L. rewrite Mv by lia. reflexivity.
Qed.
End Readable.

(** ** A described document is read as it was described *)
Lemma det_ratio r1 r2 r3 : det3 r1 r2 r3 = volume_ratio r1 r2 r3.
Proof. destruct r1 as [[a b] c], r2 as [[d e] f], r3 as [[g h] i]. unfold det3, volume_ratio. ring. Qed.
Definition padded {A} (given : nat) (f : nat -> A) (z : A) (i : nat) : A := if i <? given then f i else z.
Lemma sum_padded given nq w : given <= nq -> sum_to nq (padded given w 0%R) = sum_to given w.
Proof.
  intros L. assert (S1 : forall n, n <= given -> sum_to n (padded given w 0%R) = sum_to n w).
  { induction n; intros Hn; simpl; [reflexivity|]. rewrite IHn by lia. unfold padded at 1. destruct (Nat.ltb_spec n given); [reflexivity|lia]. }
  assert (S2 : forall k, sum_to (given + k) (padded given w 0%R) = sum_to given w).
  { induction k; [rewrite Nat.add_0_r; apply S1; lia|]. rewrite Nat.add_succ_r. simpl. rewrite IHk. unfold padded. destruct (Nat.ltb_spec (given + k) given); [lia|lra]. }
  replace nq with (given + (nq - given)) by lia. apply S2.
Qed.
Lemma described_readable y name na nq given r1 r2 r3 vols ens w F : describes y name na nq given (r1, r2, r3) vols ens w F ->
  readable y name na nq (ZnearestE (volume_ratio r1 r2 r3)) vols ens (padded given w 0%R) (padded given F (fun _ _ => 0%R)).
Proof.
  intros [J D L V E C Z]. pose proof D as (Q & N & _ & _).
  destruct (C42_frequencies _ _ _ _ _ _ _ D L) as (m & M & Mv). destruct (C42_weights _ _ _ _ _ _ _ D L) as (u & W & U & _).
  split.
  - exact J.
  - unfold natoms. rewrite N. cbn [bind]. apply get_int_nat.
  - unfold QhaReaderModel.qpoints. rewrite Q. cbn [bind]. apply get_int_nat.
  - unfold kpoints. destruct C as (t1 & t2 & t3 & -> & R1 & R2 & R3). cbn [bind].
    assert (X : forall r t, (exists a b c, t = YList [a; b; c] /\ let '(x, x', x'') := r in number a = Some x /\ number b = Some x' /\ number c = Some x'') -> three_numbers t = Some r).
    { intros [[x x'] x''] t (a & b & c & -> & A & B & C). cbn [three_numbers]. now rewrite A, B, C. }
    rewrite (X _ _ R1), (X _ _ R2), (X _ _ R3). now rewrite det_ratio.
  - exact V.
  - exact E.
  - exists m. split; [exact M|]. intros q b k Hq Hb Hk. destruct (Mv q b k Hb Hk) as (A & B). unfold padded. destruct (Nat.ltb_spec q given); auto.
  - exists u. split; [exact W|]. intros q Hq. destruct (U q) as (A & B). unfold padded. destruct (Nat.ltb_spec q given); auto.
  - now rewrite sum_padded.
Qed.

(** ** Sums over the modes *)
Lemma sum_Rsum n f : sum_to n f = StatMechSpec.Rsum n f.
Proof. induction n; simpl; [reflexivity|]. now rewrite IHn. Qed.
Lemma Rsum_ext n f g : (forall i, i < n -> f i = g i) -> StatMechSpec.Rsum n f = StatMechSpec.Rsum n g.
Proof. induction n; intros E; simpl; [reflexivity|]. rewrite IHn by (intros; apply E; lia). now rewrite E by lia. Qed.
Lemma Rsum_tail given nq f : given <= nq -> (forall i, given <= i < nq -> f i = 0%R) -> StatMechSpec.Rsum nq f = StatMechSpec.Rsum given f.
Proof.
  intros L Z. assert (S2 : forall k, given + k <= nq -> StatMechSpec.Rsum (given + k) f = StatMechSpec.Rsum given f).
  { induction k; intros Hk; [now rewrite Nat.add_0_r|]. rewrite Nat.add_succ_r. simpl. rewrite IHk by lia. rewrite Z by lia. lra. }
  rewrite <- (S2 (nq - given)) by lia. f_equal. lia.
Qed.
(** The mean of g over the q-points of the document, weights normalised by their
    sum, of the sums over the modes (a mode whose frequency is not positive does not
    count); [df] is the unit of the frequencies. *)
Definition modes_mean (na given : nat) (w : nat -> R) (F : nat -> nat -> nat -> R) (df : R * R) (j : nat) (g : R -> R) : R :=
  StatMechSpec.Rsum given (fun q => (w q / StatMechSpec.Rsum given w * StatMechSpec.Rsum (na * 3) (fun b => QhaEqProps.counted g (UnitsSpec.si df (F q b j))))%R).
Lemma mean_of_input s name na nq kp vols ens w F y x df j g : readable y name na nq kp vols ens w F -> same_input na nq vols ens w F x -> j < List.length vols ->
  QhaEqProps.mean_over_modes s x df j g = modes_mean na nq w F df j g.
Proof.
  intros _ (_ & _ & _ & B & M & _ & E & W & T) Hj. unfold QhaEqProps.mean_over_modes, modes_mean. rewrite B, M. rewrite T, (sum_Rsum nq w).
  apply Rsum_ext. intros q Hq. rewrite W by exact Hq. f_equal. apply Rsum_ext. intros b Hb. now rewrite E.
Qed.
Lemma modes_padded na nq given w F df j g : given <= nq ->
  modes_mean na nq (padded given w 0%R) (padded given F (fun _ _ => 0%R)) df j g = modes_mean na given w F df j g.
Proof.
  intros L. unfold modes_mean. replace (StatMechSpec.Rsum nq (padded given w 0%R)) with (StatMechSpec.Rsum given w) by (symmetry; exact (sum_padded given nq w L)).
  rewrite (Rsum_tail given nq) by (exact L || (intros i (A & B); unfold padded at 1; destruct (Nat.ltb_spec i given); [lia|]; unfold Rdiv; now rewrite !Rmult_0_l)).
  apply Rsum_ext. intros q Hq. unfold padded. destruct (Nat.ltb_spec q given); [reflexivity|lia].
Qed.

(** ** Documents written by quantas inpgen (C60) *)
Lemma both_lengths {A B} (Q : A -> B -> Prop) l l' : Forall2 Q l l' -> List.length l = List.length l'.
Proof. induction 1; cbn; congruence. Qed.
Lemma written_readable y name na d1 d2 d3 nq vols ens w freq : jobname y = Ok name ->
  QhaWriterProps.read_back y na (d1, d2, d3) nq vols ens w freq -> sum_to nq (fun i => IZR (Ztrunc (w i))) <> 0%R ->
  let whole d := let '(a, b, c) := d in (IZR (Ztrunc a), IZR (Ztrunc b), IZR (Ztrunc c)) in
  exists v e F, readable y name na nq (ZnearestE (volume_ratio (whole d1) (whole d2) (whole d3))) v e (fun i => IZR (Ztrunc (w i))) F /\
  Forall2 (FormatProofs.rounded 8) vols v /\ Forall2 (FormatProofs.rounded_sig 12) ens e /\
  forall i j k, i < nq -> j < na * 3 -> k < List.length vols -> FormatProofs.rounded 10 (freq i j k) (F i j k).
Proof.
  intros J (N & Q & C & (v & V & Rv) & (e & E & Re) & (m & M & Rm) & (u & U & Ru)) Z whole.
  exists v, e, (fun q b k => val (m q b k)). split; [|split; [exact Rv|split; [exact Re|]]].
  - split; try assumption.
    + unfold kpoints. rewrite C. cbn [bind map]. destruct d1 as [[? ?] ?], d2 as [[? ?] ?], d3 as [[? ?] ?]. cbn [three_numbers number]. now rewrite det_ratio.
    + exists m. split; [exact M|]. intros q b k Hq Hb Hk. destruct (Rm q b k Hq Hb) as (z & -> & _); [|reflexivity]. now rewrite (both_lengths _ _ _ Rv).
    + exists u. now split.
  - intros i j k Hi Hj Hk. now destruct (Rm i j k Hi Hj Hk) as (z & -> & H0).
Qed.
(** More q-points than announced: the weights cannot be read. *)
Lemma too_many_weights y nq na nv given F W : document y nq na nv given F W -> nq < given -> weights y = Raises "IndexError" /\ total_q_points y = Raises "IndexError".
Proof.
  intros (Q & N & _ & qs & P & Lq & H) G. assert (X : weights y = Raises "IndexError").
  - unfold weights, QhaReaderModel.qpoints. rewrite Q. cbn [bind]. rewrite get_int_nat. cbn [bind]. rewrite P. cbn [bind elements].
    assert (X : forall qs i u, (forall k q, nth_error qs k = Some q -> qpoint_lists (na * 3) nv q (F (i + k)) (W (i + k))) -> i <= nq -> nq < i + List.length qs -> fill_weights nq i qs u = Raises "IndexError").
    { clear. induction qs as [|q qs IH]; intros i u H Hi L; cbn [List.length] in L; [lia|]. cbn [fill_weights].
      destruct (H 0 q eq_refl) as (bs & t & _ & _ & _ & G & V). rewrite G. cbn [bind]. rewrite V. cbn [bind].
      destruct (Nat.leb_spec nq i); [reflexivity|]. apply IH; [|lia|lia]. intros k q' Hk. replace (S i + k) with (i + S k) by lia. apply H. exact Hk. }
    apply X; [exact H|lia|lia].
  - split; [exact X|]. unfold total_q_points, QhaReaderModel.qpoints. rewrite Q. cbn [bind]. rewrite get_int_nat. cbn [bind]. now rewrite X.
Qed.
