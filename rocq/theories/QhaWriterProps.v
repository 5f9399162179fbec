(** C60: the generated (Q)HA input, read back; references, histories and
    descriptions. *)
From Coq Require Import Reals String Ascii List Bool Arith ZArith NArith Lia Lra.
From Flocq Require Import Core.
From Verif Require Import Py DecimalModel DecimalProofs QhaReaderModel QhaReaderProps FormatModel YamlSpec FormatProofs QhaWriterModel QhaWriterProofs.
Import ListNotations.
Open Scope string_scope.
Open Scope list_scope.
Open Scope nat_scope.

Lemma each_ok {A B} (f : A -> outcome B) (g : A -> B) l : (forall x, In x l -> f x = Ok (g x)) -> each f l = Ok (map g l).
Proof.
  induction l as [|x l IH]; intros H; [reflexivity|]. cbn [each map]. rewrite H by now left. cbn [bind]. rewrite IH; [reflexivity|].
  intros y I0. apply H. now right.
Qed.
(** What the QHA input reader gives for a document: title, atoms, supercell,
    q points, and every number within half a unit of the last printed digit. *)
Definition read_back (y : yaml) (na : nat) (dims : three_reals * three_reals * three_reals) (nq : nat) (vols ens : list R)
    (w : nat -> R) (freq : nat -> nat -> nat -> R) : Prop :=
  natoms y = Ok na /\ QhaReaderModel.qpoints y = Ok nq /\
  (let '(d1, d2, d3) := dims in get "supercell" y = Ok (YList (map (fun d => let '(a, b, c) := d in YList [YInt (Ztrunc a); YInt (Ztrunc b); YInt (Ztrunc c)]) [d1; d2; d3]))) /\
  (exists v, QhaReaderModel.volume y = Ok (Array (map Num v)) /\ Forall2 (rounded 8) vols v) /\
  (exists e, QhaReaderModel.energy y = Ok (Array (map Num e)) /\ Forall2 (rounded_sig 12) ens e) /\
  (exists m, frequencies y = Ok m /\
     forall i j k, i < nq -> j < na * 3 -> k < List.length vols -> exists v, m i j k = Num v /\ rounded 10 (freq i j k) v) /\
  (exists u, QhaReaderModel.weights y = Ok u /\ forall i, i < nq -> u i = Num (IZR (Ztrunc (w i)))).

Lemma float_list v l : get_float (YList (map (num_of v) l)) = Ok (Array (map Num (map v l))).
Proof.
  unfold get_float. assert (E : all_some (List.map element (map (num_of v) l)) = Some (map Num (map v l))).
  { induction l as [|x l IH]; [reflexivity|]. cbn [map all_some]. cbn [element num_of]. now rewrite IH. }
  rewrite E. reflexivity.
Qed.
Lemma forall2_map {A B} (P : A -> B -> Prop) f l : (forall x, P x (f x)) -> Forall2 P l (map f l).
Proof. intros H. induction l; constructor; auto. Qed.
Lemma reader_sees na dims nq vols ens q s w fr yj : vols <> [] -> (forall i j, List.length (fr i j) = List.length vols) ->
  read_back (y_doc (Z.of_nat na) dims nq (na * 3) vols ens q s w fr yj) na dims nq vols ens w (fun i j k => nth k (fr i j) 0%R).
Proof.
  intros V L. set (y := y_doc _ _ _ _ _ _ _ _ _ _ _).
  assert (D : document y nq na (List.length vols) nq (fun i j k => nth k (map Num (map (fix_value 10) (fr i j))) NaN) (fun i => Num (IZR (Ztrunc (w i))))).
  { split; [reflexivity|]. split; [reflexivity|]. split.
    - exists (map Num (map (fix_value 8) vols)). split; [|now rewrite !map_length]. unfold QhaReaderModel.volume.
      change (get "volume" y) with (@Ok yaml (YList (map (num_of (fix_value 8)) vols))). cbn [bind]. apply float_list.
    - exists (map (y_q (na * 3) q s w fr) (seq 0 nq)). split; [reflexivity|]. split; [now rewrite map_length, seq_length|].
      intros i qy E. apply nth_error_In in E as Ein. apply in_map_iff in Ein.
      assert (Hi : qy = y_q (na * 3) q s w fr i).
      { rewrite nth_error_map in E. destruct (nth_error (seq 0 nq) i) as [i'|] eqn:Ei; [|discriminate]. injection E as <-.
        assert (i' = i) as ->; [|reflexivity]. assert (Hl : i < nq) by (rewrite <- (seq_length nq 0); apply nth_error_Some; congruence).
        apply (nth_error_nth (seq 0 nq) i 0) in Ei. rewrite seq_nth in Ei by exact Hl. lia. }
      subst qy. exists (map (y_mode fr i) (seq 0 (na * 3))), (YInt (Ztrunc (w i))). split; [reflexivity|]. split; [now rewrite map_length, seq_length|].
      split; [|split; reflexivity].
      intros j b Ej. rewrite nth_error_map in Ej. destruct (nth_error (seq 0 (na * 3)) j) as [j'|] eqn:Es; [|discriminate]. injection Ej as <-.
      assert (j' = j) as ->. { assert (Hl : j < na * 3) by (rewrite <- (seq_length (na * 3) 0); apply nth_error_Some; congruence).
        apply (nth_error_nth _ _ 0) in Es. rewrite seq_nth in Es by exact Hl. lia. }
      eexists; eexists. split; [reflexivity|]. split; [apply float_list|]. split; [now rewrite !map_length, L|]. reflexivity. }
  split; [exact (get_int_nat na)|]. split; [exact (get_int_nat nq)|]. split.
  { destruct dims as ((((a, b), c), ((d, e), f)), ((g, h), i)). reflexivity. }
  split.
  { exists (map (fix_value 8) vols). split; [|apply forall2_map, fix_rounded]. unfold QhaReaderModel.volume.
    change (get "volume" y) with (@Ok yaml (YList (map (num_of (fix_value 8)) vols))). cbn [bind]. apply float_list. }
  split.
  { exists (map (sci_value 12) ens). split; [|apply forall2_map, sci_rounded]. unfold QhaReaderModel.energy.
    change (get "energy" y) with (@Ok yaml (YList (map (num_of (sci_value 12)) ens))). cbn [bind]. apply float_list. }
  split.
  - destruct (C42_frequencies y nq na _ nq _ _ D (le_n _)) as (m & M & F). exists m. split; [exact M|]. intros i j k Hi Hj Hk.
    destruct (F i j k Hj Hk) as (F1 & _). rewrite (F1 Hi). exists (fix_value 10 (nth k (fr i j) 0%R)). split; [|apply fix_rounded].
    rewrite map_map. rewrite (nth_indep _ NaN (Num (fix_value 10 0))) by (rewrite map_length, L; exact Hk). apply (map_nth (fun x => Num (fix_value 10 x))).
  - destruct (C42_weights y nq na _ nq _ _ D (le_n _)) as (u & U & F & _). exists u. split; [exact U|]. intros i Hi. apply F, Hi.
Qed.

(** ** Multiple files *)
(** Every output has the bands and modes of the reference. *)
Definition covers (nq nm : nat) (d : output) : Prop :=
  forall i, i < nq -> exists b, nth_error (phonons d) i = Some b /\ nm <= List.length b.
Definition frequency (d : output) (i j : nat) : R := nth j (nth i (phonons d) []) 0%R.
Lemma multiple_shape all job ref r : py_item all ref = Ok r -> qpoints r <= List.length (qcoords r) -> qpoints r <= List.length (weights r) ->
  Forall (covers (qpoints r) (nphonon r)) all ->
  multiple_lines all job ref =
  Ok (doc_lines job (natom r) (dim r) (qpoints r) (nphonon r) (map volume all) (map energy all)
        (fun i => nth i (qcoords r) (0, 0, 0)%R) (shrinkf r) (fun i => nth i (weights r) 0%R) (fun i j => map (fun d => frequency d i j) all)).
Proof.
  intros E Lq Lw C. unfold multiple_lines. rewrite E. cbn [bind].
  assert (K : forall A (l : list A) i d, i < List.length l -> key l i = Ok (nth i l d)).
  { intros A l i d H. unfold key. rewrite (nth_error_nth' l d H). reflexivity. }
  rewrite (each_ok (q_lines all r) (doc_q (nphonon r) (fun i => nth i (qcoords r) (0, 0, 0)%R) (shrinkf r) (fun i => nth i (weights r) 0%R) (fun i j => map (fun d => frequency d i j) all))).
  - cbn [bind]. unfold doc_lines, header, doc_header. destruct (dim r) as ((d1, d2), d3). reflexivity.
  - intros i I0. apply in_seq in I0. unfold q_lines. rewrite (K three_reals (qcoords r) i (0, 0, 0)%R ltac:(lia)). cbn [bind]. rewrite (K _ (weights r) i 0%R ltac:(lia)). cbn [bind].
    rewrite (each_ok (mode_lines all i) (doc_mode (fun i j => map (fun d => frequency d i j) all) i)); [reflexivity|].
    intros j J. apply in_seq in J. unfold mode_lines. rewrite (each_ok _ (fun d => frequency d i j)); [reflexivity|].
    intros d Id. rewrite Forall_forall in C. destruct (C d Id i ltac:(lia)) as (b & B & Lb). unfold key. rewrite B. cbn [bind]. unfold item.
    rewrite (nth_error_nth' b 0%R) by lia. unfold frequency. rewrite (nth_error_nth _ _ _ B). reflexivity.
Qed.
Lemma item_in {A} (l : list A) k x : item l k = Ok x -> In x l.
Proof. unfold item. destruct (nth_error l k) eqn:E; [|discriminate]. intros H. injection H as <-. now apply nth_error_In in E. Qed.
Lemma py_item_in {A} (l : list A) i x : py_item l i = Ok x -> In x l.
Proof. unfold py_item. intros H. destruct (i <? 0)%Z; [destruct (_ <? 0)%Z; [discriminate|]|]; now apply item_in in H. Qed.
(** The file made from several outputs, read back by the (Q)HA reader: for each
    output in order its own volume, energy and frequencies, each within half a
    unit of the last printed digit, and atoms, supercell, q points and
    (truncated) weights of the reference. *)
Theorem C60_roundtrip all job ref r na : py_item all ref = Ok r -> plain job ->
  natom r = Z.of_nat na -> nphonon r = na * 3 -> 0 < na -> 0 < qpoints r ->
  qpoints r <= List.length (qcoords r) -> qpoints r <= List.length (weights r) ->
  Forall (covers (qpoints r) (nphonon r)) all ->
  exists ls y, multiple_lines all job ref = Ok ls /\ yaml_of (join_lines ls) = Some y /\
    jobname y = Ok (strip job) /\
    read_back y na (dim r) (qpoints r) (map volume all) (map energy all) (fun i => nth i (weights r) 0%R)
      (fun i j k => nth k (map (fun d => frequency d i j) all) 0%R).
Proof.
  intros E J Na Nm P Q Lq Lw C. assert (NE : all <> []) by (intros ->; apply py_item_in in E; exact E).
  rewrite (multiple_shape all job ref r E Lq Lw C).
  eexists; eexists. split; [reflexivity|]. split; [apply written_document with (yj := YStr (strip job))|].
  - apply plain_line. apply J.
  - intros d. apply job_plain, J.
  - now destruct all.
  - now destruct all.
  - intros i j. now destruct all.
  - lia.
  - exact Q.
  - split.
    + unfold jobname. change (get "job" _) with (@Ok yaml (YStr (strip job))). cbv iota.
      assert (R0 : forall s, rstrip (rstrip s) = rstrip s).
      { induction s as [|a s IH]; [reflexivity|]. cbn [rstrip]. destruct (all_space (String a s)) eqn:A; [reflexivity|].
        cbn [rstrip]. assert (X : all_space (String a (rstrip s)) = false); [|now rewrite X, IH].
        cbn [all_space] in *. destruct (is_space a); [|reflexivity]. cbn [andb] in *. clear IH. revert A. induction s as [|b s IH]; intros A; [discriminate|].
        cbn [rstrip]. rewrite A. cbn [all_space] in *. destruct (is_space b); [|reflexivity]. cbn [andb] in *. now apply IH. }
      unfold strip. now rewrite R0.
    + rewrite Na, Nm. apply reader_sees; [now destruct all|]. intros i j. now rewrite !map_length.
Qed.
(** The value at position k is that of the k-th output. *)
Theorem C60_own_values all i j k d : nth_error all k = Some d ->
  nth k (map (fun d => frequency d i j) all) 0%R = frequency d i j /\ nth_error (map volume all) k = Some (volume d) /\ nth_error (map energy all) k = Some (energy d).
Proof.
  intros E. rewrite !nth_error_map, E. split; [|split; reflexivity].
  apply nth_error_nth. now rewrite nth_error_map, E.
Qed.
(** A concrete set of two outputs (the second is the reference) *)
Definition example_output (v e f : R) : output :=
  {| natom := 1; dim := ((1, 0, 0), (0, 1, 0), (0, 0, 1))%R; qpoints := 1; qcoords := [(0, 0, 0)%R]; shrinkf := (1, 1, 1)%R; weights := [1%R];
     nphonon := 3; volume := v; energy := e; phonons := [[f; f; f]] |}.
Example C60_instance : exists ls y,
  multiple_lines [example_output 10 (-1) 100; example_output 11 (-2) 90] "MgO at two volumes" 1 = Ok ls /\ yaml_of (join_lines ls) = Some y /\
  jobname y = Ok "MgO at two volumes" /\
  read_back y 1 ((1, 0, 0), (0, 1, 0), (0, 0, 1))%R 1 [10; 11]%R [-1; -2]%R (fun i => nth i [1%R] 0%R)
    (fun i j k => nth k [frequency (example_output 10 (-1) 100) i j; frequency (example_output 11 (-2) 90) i j] 0%R).
Proof.
  assert (J : plain "MgO at two volumes").
  { split; [exists "M"%char, "gO at two volumes"; split; reflexivity|split; reflexivity]. }
  assert (C : Forall (covers 1 3) [example_output 10 (-1) 100; example_output 11 (-2) 90]).
  { apply Forall_cons; [|apply Forall_cons; [|apply Forall_nil]]; intros i Hi; assert (i = 0) as -> by lia.
    - exists [100; 100; 100]%R. split; [reflexivity|cbn; lia].
    - exists [90; 90; 90]%R. split; [reflexivity|cbn; lia]. }
  apply (C60_roundtrip [example_output 10 (-1) 100; example_output 11 (-2) 90] "MgO at two volumes" 1 (example_output 11 (-2) 90) 1 eq_refl J eq_refl eq_refl
    ltac:(lia) (le_n 1) (le_n 1) (le_n 1) C).
Qed.

(** ** One CRYSTAL QHA file *)
Theorem C60_single_roundtrip d job na : plain job ->
  o_natom d = Z.of_nat na -> o_nphonon d = na * 3 -> 0 < na -> 0 < o_qpoints d -> 0 < points d ->
  List.length (o_volume d) = points d -> List.length (o_energy d) = points d ->
  o_qpoints d <= List.length (o_qcoords d) -> o_qpoints d <= List.length (o_weights d) ->
  (forall i, i < o_qpoints d -> exists b, nth_error (o_phonons d) i = Some b /\
     forall j, j < o_nphonon d -> exists l, nth_error b j = Some l /\ List.length l = points d) ->
  exists ls y, single_lines d job = Ok ls /\ yaml_of (join_lines ls) = Some y /\
    read_back y na (o_dim d) (o_qpoints d) (o_volume d) (o_energy d) (fun i => nth i (o_weights d) 0%R)
      (fun i j k => nth k (nth j (nth i (o_phonons d) []) []) 0%R).
Proof.
  intros J Na Nm P Q Np Lv Le Lq Lw H.
  set (good := fun i j => if Nat.eqb (List.length (nth j (nth i (o_phonons d) []) [])) (points d) then nth j (nth i (o_phonons d) []) [] else o_volume d).
  assert (K : forall A (l : list A) i x, i < List.length l -> key l i = Ok (nth i l x)).
  { intros A l i x L. unfold key. rewrite (nth_error_nth' l x L). reflexivity. }
  assert (G : forall i j, i < o_qpoints d -> j < o_nphonon d -> good i j = nth j (nth i (o_phonons d) []) [] /\ List.length (nth j (nth i (o_phonons d) []) []) = points d).
  { intros i j Hi Hj. destruct (H i Hi) as (b & B & F). destruct (F j Hj) as (l & Lj & Ll). unfold good. rewrite (nth_error_nth _ _ _ B), (nth_error_nth _ _ _ Lj), Ll, Nat.eqb_refl. now split. }
  assert (GL : forall i j, List.length (good i j) = points d).
  { intros i j. unfold good. destruct (Nat.eqb_spec (List.length (nth j (nth i (o_phonons d) []) [])) (points d)); assumption. }
  assert (TF : forall l, List.length l = points d -> take_fields (points d) l = Ok l).
  { intros l L. unfold take_fields. rewrite <- L, Nat.ltb_irrefl, firstn_all. reflexivity. }
  assert (SH : single_lines d job = Ok (doc_lines job (o_natom d) (o_dim d) (o_qpoints d) (o_nphonon d) (o_volume d) (o_energy d)
     (fun i => nth i (o_qcoords d) (0, 0, 0)%R) (o_shrinkf d) (fun i => nth i (o_weights d) 0%R) good)).
  { unfold single_lines. rewrite (TF _ Lv). cbn [bind]. rewrite (TF _ Le). cbn [bind].
    rewrite (each_ok (single_q_lines d) (doc_q (o_nphonon d) (fun i => nth i (o_qcoords d) (0, 0, 0)%R) (o_shrinkf d) (fun i => nth i (o_weights d) 0%R) good)).
    - cbn [bind]. unfold doc_lines, single_header, doc_header. destruct (o_dim d) as ((d1, d2), d3). reflexivity.
    - intros i I0. apply in_seq in I0. unfold single_q_lines. rewrite (K three_reals (o_qcoords d) i (0, 0, 0)%R ltac:(lia)). cbn [bind]. rewrite (K _ (o_weights d) i 0%R ltac:(lia)). cbn [bind].
      rewrite (each_ok _ (doc_mode good i)); [reflexivity|]. intros j Ij. apply in_seq in Ij.
      destruct (H i ltac:(lia)) as (b & B & F). destruct (F j ltac:(lia)) as (l & Lj & Ll). unfold key. rewrite B. cbn [bind]. unfold item. rewrite Lj. cbn [bind].
      rewrite (TF _ Ll). cbn [bind]. unfold doc_mode. destruct (G i j ltac:(lia) ltac:(lia)) as (-> & _).
      rewrite (nth_error_nth _ _ _ B), (nth_error_nth _ _ _ Lj). reflexivity. }
  rewrite SH. eexists; eexists. split; [reflexivity|]. split; [apply written_document with (yj := YStr (strip job))|].
  - apply plain_line. apply J.
  - intros n. apply job_plain, J.
  - intros Z0. rewrite Z0 in Lv. cbn in Lv. lia.
  - intros Z0. rewrite Z0 in Le. cbn in Le. lia.
  - intros i j Z0. pose proof (GL i j) as X. rewrite Z0 in X. cbn in X. lia.
  - lia.
  - exact Q.
  - rewrite Na, Nm.
    assert (V : o_volume d <> []) by (intros Z0; rewrite Z0 in Lv; cbn in Lv; lia).
    pose proof (reader_sees na (o_dim d) (o_qpoints d) (o_volume d) (o_energy d) (fun i => nth i (o_qcoords d) (0, 0, 0)%R) (o_shrinkf d) (fun i => nth i (o_weights d) 0%R) good (YStr (strip job)) V
      ltac:(intros; now rewrite GL, Lv)) as X.
    destruct X as (A1 & A2 & A3 & A4 & A5 & (m & M & F) & A7). repeat split; try assumption. exists m. split; [exact M|].
    intros i j k Hi Hj Hk. destruct (F i j k Hi Hj Hk) as (v & E & Rd). exists v. split; [exact E|].
    destruct (G i j Hi ltac:(lia)) as (<- & _). exact Rd.
Qed.
Example C60_single_instance : exists ls y,
  single_lines {| o_natom := 1; o_dim := ((1, 0, 0), (0, 1, 0), (0, 0, 1))%R; o_qpoints := 1; o_qcoords := [(0, 0, 0)%R]; o_shrinkf := (1, 1, 1)%R;
     o_weights := [1%R]; o_nphonon := 3; points := 2; o_volume := [10; 11]%R; o_energy := [-1; -2]%R; o_phonons := [[[1; 2]; [3; 4]; [5; 6]]]%R |} "MgO" = Ok ls /\
  yaml_of (join_lines ls) = Some y /\
  read_back y 1 ((1, 0, 0), (0, 1, 0), (0, 0, 1))%R 1 [10; 11]%R [-1; -2]%R (fun i => nth i [1%R] 0%R) (fun i j k => nth k (nth j (nth i [[[1; 2]; [3; 4]; [5; 6]]]%R []) []) 0%R).
Proof.
  set (d := Build_qha_output _ _ _ _ _ _ _ _ _ _ _).
  assert (J : plain "MgO") by (split; [exists "M"%char, "gO"; split; reflexivity|split; reflexivity]).
  apply (C60_single_roundtrip d "MgO" 1 J eq_refl eq_refl (le_n 1) (le_n 1) ltac:(cbn; lia) eq_refl eq_refl (le_n 1) (le_n 1)).
  intros i Hi. cbn in Hi. assert (i = 0) as -> by lia. eexists. split; [reflexivity|]. intros j Hj. cbn in Hj.
  destruct j as [|[|[|j]]]; [exists [1; 2]%R|exists [3; 4]%R|exists [5; 6]%R|lia]; split; reflexivity.
Qed.

(** ** References *)
(** The file is made exactly when the reference is an index of Python; a larger
    one is refused, except one past the end, which crashes like those below
    -n. Negative references count from the end. *)
Theorem C60_reference disk flag filename lls ref job p p1 m e : is_qha flag = false ->
  read disk flag filename lls ref (create p) = (p1, m, Ok (true, e)) ->
  let n := Z.of_nat (List.length (phondata p1)) in
  let res := snd (inpgen disk flag filename lls ref job p) in
  ((n < ref)%Z -> res = Message (Some "Invalid reference provided")) /\
  (ref = n -> res = Crash "IndexError") /\ ((ref < - n)%Z -> res = Crash "IndexError") /\
  ((0 <= ref < n)%Z -> exists r, nth_error (phondata p1) (Z.to_nat ref) = Some r /\ py_item (phondata p1) ref = Ok r /\ res = of_lines (multiple_lines (phondata p1) job ref)) /\
  ((- n <= ref < 0)%Z -> exists r, nth_error (phondata p1) (Z.to_nat (n + ref)) = Some r /\ py_item (phondata p1) ref = Ok r /\ res = of_lines (multiple_lines (phondata p1) job ref)).
Proof.
  intros Q Rd n res. unfold res, inpgen. rewrite Rd. cbn [snd]. rewrite Q. fold n.
  assert (L : forall k, (k < List.length (phondata p1)) -> exists r, nth_error (phondata p1) k = Some r).
  { intros k H. destruct (nth_error (phondata p1) k) eqn:E; [now eexists|]. apply nth_error_None in E. lia. }
  assert (PI : forall r, py_item (phondata p1) ref = Raises r -> of_lines (multiple_lines (phondata p1) job ref) = Crash r).
  { intros r E. unfold multiple_lines. rewrite E. reflexivity. }
  assert (NL : (n <? ref)%Z = false \/ (n < ref)%Z) by (destruct (Z.ltb_spec n ref); tauto).
  repeat split.
  - intros H. apply Z.ltb_lt in H. now rewrite H.
  - intros ->. rewrite Z.ltb_irrefl. apply PI. unfold py_item, item. destruct (Z.ltb_spec n 0); [lia|].
    rewrite (proj2 (nth_error_None _ _)); [reflexivity|]. unfold n. lia.
  - intros H. destruct NL as [->|]; [|lia]. apply PI. unfold py_item. destruct (Z.ltb_spec ref 0); [|lia]. fold n. destruct (Z.ltb_spec (n + ref) 0); [reflexivity|lia].
  - intros H. destruct NL as [->|]; [|lia]. destruct (L (Z.to_nat ref)) as (r & E); [lia|]. exists r. split; [exact E|]. split; [|reflexivity].
    unfold py_item. destruct (Z.ltb_spec ref 0); [lia|]. unfold item. now rewrite E.
  - intros H. destruct NL as [->|]; [|lia]. destruct (L (Z.to_nat (n + ref))) as (r & E); [lia|]. exists r. split; [exact E|]. split; [|reflexivity].
    unfold py_item. destruct (Z.ltb_spec ref 0); [|lia]. fold n. destruct (Z.ltb_spec (n + ref) 0); [lia|]. unfold item. now rewrite E.
Qed.

(** ** Histories of one process *)
Lemma read_files_phonons disk files ds c ref p : Forall2 (fun f d => disk f = Phonons d) files ds ->
  read_files disk files c ref p =
  ({| phondata := phondata p ++ ds; own := own p |}, combine files (map (fun k => (Z.of_nat k =? ref)%Z) (seq c (List.length files))), Ok (true, None)).
Proof.
  intros F. revert c p. induction F as [|f d files ds E F IH]; intros c p.
  - cbn. rewrite app_nil_r. now destruct p.
  - cbn [read_files]. rewrite E, IH. cbn [phondata own List.length seq map combine]. rewrite <- app_assoc. reflexivity.
Qed.
(** A run also writes everything read by earlier runs of the process, first,
    and the reference is counted from there. *)
Theorem C60_history disk flag filename lls ds ref job p : is_qha flag = false -> Forall2 (fun f d => disk f = Phonons d) (map rstrip lls) ds ->
  let old := phondata p in
  snd (inpgen disk flag filename (Some lls) ref job p) =
    (if (Z.of_nat (List.length (old ++ ds)) <? ref)%Z then Message (Some "Invalid reference provided") else of_lines (multiple_lines (old ++ ds) job ref)) /\
  phondata (fst (fst (inpgen disk flag filename (Some lls) ref job p))) = old ++ ds.
Proof.
  intros Q F old. unfold inpgen, read. rewrite Q, (read_files_phonons disk _ ds 0 ref (create p) F). cbn [snd fst phondata create]. fold old. split; reflexivity.
Qed.
(** So two runs with one file each: the second file has two volumes, and its
    geometry is that of the first run. *)
Theorem C60_second_run_refuted disk flag f1 f2 d1 d2 job : is_qha flag = false -> disk f1 = Phonons d1 -> disk f2 = Phonons d2 ->
  let start := {| phondata := []; own := Shared |} in
  let p1 := fst (fst (inpgen disk flag f1 None 0 job start)) in
  snd (inpgen disk flag f1 None 0 job start) = of_lines (multiple_lines [d1] job 0) /\
  snd (inpgen disk flag f2 None 0 job p1) = of_lines (multiple_lines [d1; d2] job 0) /\
  snd (fst (inpgen disk flag f2 None 0 job p1)) = [(f2, true)] /\
  py_item [d1; d2] 0 = Ok d1.
Proof.
  intros Q E1 E2 start p1. unfold p1, inpgen, read, start. cbn [create phondata own]. cbn [read_files]. rewrite E1, E2, Q.
  cbn [fst snd phondata own app List.length Z.of_nat]. split; [reflexivity|]. split; [reflexivity|]. split; reflexivity.
Qed.
(** Files read before one that fails stay in the process. *)
Theorem C60_failed_read disk flag filename lls ds bad rest err ref job p : is_qha flag = false ->
  Forall2 (fun f d => disk f = Phonons d) (map rstrip lls) ds -> disk (rstrip bad) = Incomplete err ->
  snd (inpgen disk flag filename (Some (lls ++ bad :: rest)) ref job p) = Message (Some err) /\
  phondata (fst (fst (inpgen disk flag filename (Some (lls ++ bad :: rest)) ref job p))) = phondata p ++ ds.
Proof.
  intros Q F B. unfold inpgen, read. rewrite Q, map_app. cbn [map].
  assert (X : forall files ds c q, Forall2 (fun f d => disk f = Phonons d) files ds ->
    exists m, read_files disk (files ++ rstrip bad :: map rstrip rest) c ref q = ({| phondata := phondata q ++ ds; own := own q |}, m, Ok (false, Some err))).
  { intros files es c q H. revert c q. induction H as [|f d files es E H IH]; intros c q.
    - cbn [app read_files]. rewrite B, app_nil_r. exists []. now destruct q.
    - cbn [app read_files]. rewrite E. destruct (IH (S c) {| phondata := phondata q ++ [d]; own := own q |}) as (m & ->). cbn [phondata own].
      rewrite <- app_assoc. now eexists. }
  destruct (X _ _ 0 (create p) F) as (m & ->). split; reflexivity.
Qed.
(** A blank line in the list of files ends the run with a message. *)
Theorem C60_blank_line disk flag filename lls ds bad rest ref job p : is_qha flag = false ->
  Forall2 (fun f d => disk f = Phonons d) (map rstrip lls) ds -> rstrip bad = "" -> disk "" = Missing ->
  snd (inpgen disk flag filename (Some (lls ++ bad :: rest)) ref job p) = Message (Some "File  does not exists").
Proof.
  intros Q F B M. unfold inpgen, read. rewrite Q, map_app. cbn [map]. rewrite B.
  assert (X : forall files es c q, Forall2 (fun f d => disk f = Phonons d) files es ->
    exists q' m, read_files disk (files ++ "" :: map rstrip rest) c ref q = (q', m, Ok (false, Some "File  does not exists"))).
  { intros files es c q H. revert c q. induction H as [|f d files es E H IH]; intros c q.
    - cbn [app read_files]. rewrite M. eexists; eexists. reflexivity.
    - cbn [app read_files]. rewrite E. destruct (IH (S c) {| phondata := phondata q ++ [d]; own := own q |}) as (q' & m & ->). eexists; eexists. reflexivity. }
  destruct (X _ _ 0 (create p) F) as (q' & m & ->). reflexivity.
Qed.

(** ** Outputs with fewer phonons than the reference *)
Lemma each_app {A B} (f : A -> outcome B) l1 l2 ys : each f l1 = Ok ys -> each f (l1 ++ l2) = bind (each f l2) (fun zs => Ok (ys ++ zs)).
Proof.
  revert ys; induction l1 as [|x l1 IH]; intros ys H; cbn [each app] in *.
  - injection H as <-. destruct (each f l2); reflexivity.
  - destruct (f x); [|discriminate]. cbn [bind] in *. destruct (each f l1); [|discriminate]. cbn [bind] in H. injection H as <-.
    rewrite (IH _ eq_refl). destruct (each f l2); reflexivity.
Qed.
Lemma each_first {A B} (f : A -> outcome B) l1 x l2 e : (exists ys, each f l1 = Ok ys) -> f x = Raises e -> each f (l1 ++ x :: l2) = Raises e.
Proof. intros (ys & H) E. rewrite (each_app _ _ _ _ H). cbn [each]. rewrite E. reflexivity. Qed.
(** The first output lacking a band of the reference makes the command crash
    with KeyError, whatever the others. *)
Theorem C60_missing_band all job ref r before d after k : py_item all ref = Ok r -> all = before ++ d :: after ->
  qpoints r <= List.length (qcoords r) -> qpoints r <= List.length (weights r) -> 0 < nphonon r ->
  k < qpoints r -> Forall (covers k (nphonon r)) all -> Forall (covers (S k) 1) before -> nth_error (phonons d) k = None ->
  multiple_lines all job ref = Raises "KeyError".
Proof.
  intros E Sp Lq Lw Nm Hk C Cb M. unfold multiple_lines. rewrite E. cbn [bind].
  assert (X : each (q_lines all r) (seq 0 (qpoints r)) = Raises "KeyError"); [|now rewrite X].
  replace (qpoints r) with (k + S (qpoints r - k - 1)) by lia. rewrite seq_app. cbn [seq Nat.add].
  assert (K : forall A (l : list A) i d, i < List.length l -> key l i = Ok (nth i l d)).
  { intros A l i x H. unfold key. rewrite (nth_error_nth' l x H). reflexivity. }
  apply each_first.
  - exists (map (doc_q (nphonon r) (fun i => nth i (qcoords r) (0, 0, 0)%R) (shrinkf r) (fun i => nth i (weights r) 0%R) (fun i j => map (fun d => frequency d i j) all)) (seq 0 k)).
    apply each_ok. intros i I0. apply in_seq in I0. unfold q_lines. rewrite (K three_reals (qcoords r) i (0, 0, 0)%R ltac:(lia)). cbn [bind]. rewrite (K _ (weights r) i 0%R ltac:(lia)). cbn [bind].
    rewrite (each_ok (mode_lines all i) (doc_mode (fun i j => map (fun d => frequency d i j) all) i)); [reflexivity|].
    intros j J. apply in_seq in J. unfold mode_lines. rewrite (each_ok _ (fun d => frequency d i j)); [reflexivity|].
    intros x Ix. rewrite Forall_forall in C. destruct (C x Ix i ltac:(lia)) as (b & B & Lb). unfold key. rewrite B. cbn [bind]. unfold item.
    rewrite (nth_error_nth' b 0%R) by lia. unfold frequency. rewrite (nth_error_nth _ _ _ B). reflexivity.
  - unfold q_lines. rewrite (K three_reals (qcoords r) k (0, 0, 0)%R ltac:(lia)). cbn [bind]. rewrite (K _ (weights r) k 0%R ltac:(lia)). cbn [bind].
    assert (Y : mode_lines all k 0 = Raises "KeyError").
    { unfold mode_lines. rewrite Sp. rewrite each_first with (e := "KeyError"); [reflexivity| |unfold key; now rewrite M].
      exists (map (fun d => frequency d k 0) before). apply each_ok. intros x Ix. rewrite Forall_forall in Cb. destruct (Cb x Ix k ltac:(lia)) as (b & B & Lb).
      unfold key. rewrite B. cbn [bind]. unfold item. rewrite (nth_error_nth' b 0%R) by lia. unfold frequency. rewrite (nth_error_nth _ _ _ B). reflexivity. }
    destruct (nphonon r) as [|nm]; [lia|]. cbn [seq each]. rewrite Y. reflexivity.
Qed.
Example C60_missing_band_instance :
  multiple_lines [example_output 10 (-1) 100; {| natom := 1; dim := ((1, 0, 0), (0, 1, 0), (0, 0, 1))%R; qpoints := 0; qcoords := []; shrinkf := (1, 1, 1)%R; weights := [];
     nphonon := 3; volume := 11; energy := -2; phonons := [] |}] "MgO" 0 = Raises "KeyError".
Proof. reflexivity. Qed.

(** ** Descriptions *)
(** An empty or integer description, accepted at the prompt, is not a string
    for the reader, whose title then raises AttributeError; one with ": "
    inside makes the file unreadable. *)
Theorem C60_description_refuted all ref r na z job : py_item all ref = Ok r ->
  natom r = Z.of_nat na -> nphonon r = na * 3 -> 0 < na -> 0 < qpoints r ->
  qpoints r <= List.length (qcoords r) -> qpoints r <= List.length (weights r) -> Forall (covers (qpoints r) (nphonon r)) all ->
  (exists ls y, multiple_lines all "" ref = Ok ls /\ yaml_of (join_lines ls) = Some y /\ jobname y = Raises "AttributeError") /\
  (exists ls y, multiple_lines all (int_text z) ref = Ok ls /\ yaml_of (join_lines ls) = Some y /\ jobname y = Raises "AttributeError") /\
  ((exists a s, job = String a s /\ is_letter a = true) -> all_chars line_char job = true -> colon "" (strip job) <> None ->
   exists ls, multiple_lines all job ref = Ok ls /\ yaml_of (join_lines ls) = None).
Proof.
  intros E Na Nm P Q Lq Lw C. assert (NE : all <> []) by (intros ->; apply py_item_in in E; exact E). split; [|split].
  - rewrite (multiple_shape all "" ref r E Lq Lw C). eexists; eexists. split; [reflexivity|]. split; [apply written_document with (yj := YNull)|]; try (now destruct all); try (intros; now destruct all); try reflexivity; lia || assumption.
  - rewrite (multiple_shape all (int_text z) ref r E Lq Lw C). eexists; eexists. split; [reflexivity|]. split; [apply written_document with (yj := YInt z)|]; try (now destruct all); try (intros; now destruct all); try reflexivity; try lia; try assumption.
    + apply number_line_chars, int_chars.
    + intros d. apply job_int.
  - intros L H K. rewrite (multiple_shape all job ref r E Lq Lw C). eexists. split; [reflexivity|]. apply unreadable_job; [exact H|]. intros d. now apply job_colon.
Qed.
Example C60_description_instance : colon "" (strip "MgO: run 2") <> None /\ all_chars line_char "MgO: run 2" = true /\ int_text 2021 = "2021".
Proof. split; [discriminate|]. split; vm_compute; reflexivity. Qed.
(** A disk with two readable outputs, one incomplete and a list naming them *)
Definition example_disk (f : string) : file :=
  if String.eqb f "a.out" then Phonons (example_output 10 (-1) 100) else if String.eqb f "b.out" then Phonons (example_output 11 (-2) 90)
  else if String.eqb f "c.out" then Incomplete "no phonons" else Missing.
Definition nl_text := String newline "".
Example C60_process_instance :
  Forall2 (fun f d => example_disk f = Phonons d) (map rstrip ["a.out" +++ nl_text; "b.out" +++ nl_text]) [example_output 10 (-1) 100; example_output 11 (-2) 90] /\
  example_disk (rstrip ("c.out" +++ nl_text)) = Incomplete "no phonons" /\ rstrip nl_text = "" /\ example_disk "" = Missing /\
  snd (fst (inpgen example_disk Crystal "list" (Some ["a.out" +++ nl_text; "b.out" +++ nl_text]) 1 "MgO" {| phondata := []; own := Shared |})) = [("a.out", false); ("b.out", true)] /\
  snd (inpgen example_disk Crystal "list" (Some ["a.out" +++ nl_text; "b.out" +++ nl_text]) 2 "MgO" {| phondata := []; own := Shared |}) = Crash "IndexError" /\
  snd (inpgen example_disk Crystal "list" (Some ["a.out" +++ nl_text; "b.out" +++ nl_text]) 3 "MgO" {| phondata := []; own := Shared |}) = Message (Some "Invalid reference provided").
Proof.
  split; [apply Forall2_cons; [reflexivity|apply Forall2_cons; [reflexivity|apply Forall2_nil]]|]. repeat (split; [reflexivity|]). reflexivity.
Qed.

Print Assumptions C60_roundtrip.
Print Assumptions C60_own_values.
Print Assumptions C60_single_roundtrip.
Print Assumptions C60_reference.
Print Assumptions C60_history.
Print Assumptions C60_second_run_refuted.
Print Assumptions C60_failed_read.
Print Assumptions C60_blank_line.
Print Assumptions C60_missing_band.
Print Assumptions C60_description_refuted.
