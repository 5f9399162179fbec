(** C59: CRYSTAL QHA outputs; C38 for their reader. *)
From Coq Require Import Reals String Ascii List Bool Arith ZArith NArith Lia Lra Permutation.
From Verif Require Import Py DecimalModel SoecInterfaceModel CrystalModel CrystalProps CrystalCellProps.
Import ListNotations.
Open Scope string_scope.
Open Scope list_scope.
Open Scope nat_scope.

(** ** Ordering the cells *)
(** Cell c has (nearly) the volume v of the sorted list. *)
Definition fits (c : cell) (v : fl) : Prop := exists x y, det3 (lattice c) = Num x /\ v = Num y /\
  (Rabs (x - y) <= 1 / 10 ^ 8 + 1 / 10 ^ 5 * Rabs y)%R.
Lemma isclose_fits c v : isclose (det3 (lattice c)) v = true <-> fits c v.
Proof.
  unfold fits, isclose. destruct (det3 (lattice c)) as [x|], v as [y|].
  - destruct (Rle_dec (Rabs (x - y)) (1 / 10 ^ 8 + 1 / 10 ^ 5 * Rabs y)) as [L|L]; split; try discriminate; try reflexivity.
    + intros _. exists x, y. auto.
    + intros (x' & y' & [= <-] & [= <-] & H). contradiction.
  - split; [discriminate|]. intros (x' & y' & _ & E & _). discriminate.
  - split; [discriminate|]. intros (x' & y' & E & _). discriminate.
  - split; [discriminate|]. intros (x' & y' & E & _). discriminate.
Qed.
(** Every sorted volume belongs to one and only one cell. *)
Definition one_to_one (cells : list cell) (vols : list fl) : Prop :=
  List.length cells <= List.length vols /\
  (forall j v, j < List.length cells -> nth_error vols j = Some v -> exists c, In c cells /\ fits c v) /\
  (forall c j j' v v', In c cells -> j < List.length cells -> j' < List.length cells ->
     nth_error vols j = Some v -> nth_error vols j' = Some v' -> fits c v -> fits c v' -> j = j') /\
  (forall c, In c cells -> exists j v, j < List.length cells /\ nth_error vols j = Some v /\ fits c v).
Lemma matches_all c vols n : n <= List.length vols ->
  matches (det3 (lattice c)) vols n = Ok (filter (fun j => isclose (det3 (lattice c)) (nth j vols NaN)) (seq 0 n)).
Proof.
  intros H. unfold matches.
  assert (G : forall l, (forall j, In j l -> j < List.length vols) ->
    each (fun j => let? v := item vols j in Ok (if isclose (det3 (lattice c)) v then [j] else [])) l =
    Ok (map (fun j => if isclose (det3 (lattice c)) (nth j vols NaN) then [j] else []) l)).
  { induction l as [|j l IH]; intros L; cbn [each map]; [reflexivity|].
    unfold item at 1. rewrite (nth_error_nth' vols NaN) by (apply L; left; reflexivity). cbn [bind].
    rewrite IH by (intros k K; apply L; right; exact K). reflexivity. }
  rewrite G by (intros j J; apply in_seq in J; lia). cbn [bind]. f_equal.
  induction (seq 0 n) as [|j l IH]; cbn [map List.concat filter]; [reflexivity|].
  rewrite IH. destruct (isclose _ _); reflexivity.
Qed.
Lemma indexes_sigma cells vols (sigma : nat -> nat) : List.length cells <= List.length vols ->
  (forall i c, nth_error cells i = Some c -> filter (fun j => isclose (det3 (lattice c)) (nth j vols NaN)) (seq 0 (List.length cells)) = [sigma i]) ->
  indexes cells vols = Ok (map sigma (seq 0 (List.length cells))).
Proof.
  intros L H. unfold indexes. set (n := List.length cells) in *.
  assert (G : forall l s, (forall i c, nth_error l i = Some c -> filter (fun j => isclose (det3 (lattice c)) (nth j vols NaN)) (seq 0 n) = [sigma (s + i)]) ->
    each (fun c => matches (det3 (lattice c)) vols n) l = Ok (map (fun i => [sigma i]) (seq s (List.length l)))).
  { induction l as [|c l IH]; intros s F; cbn [each List.length seq map]; [reflexivity|].
    rewrite matches_all by exact L. rewrite (F 0 c eq_refl), Nat.add_0_r. cbn [bind].
    rewrite (IH (S s)); [reflexivity|]. intros i c' N. replace (S s + i) with (s + S i) by lia. now apply F. }
  rewrite (G cells 0) by (intros i c N; now apply H). cbn [bind]. f_equal. fold n.
  clear H G. induction (seq 0 n) as [|j l IH]; cbn [map List.concat app]; [reflexivity|]. now rewrite IH.
Qed.
Lemma index_found l x : In x l -> exists k, index l x = Ok k /\ nth_error l k = Some x.
Proof.
  induction l as [|y l IH]; [intros []|]. intros [->|I]; cbn [index].
  - rewrite Nat.eqb_refl. exists 0. auto.
  - destruct (Nat.eqb_spec y x) as [->|N]; [exists 0; auto|]. destruct (IH I) as (k & E & K). rewrite E. exists (S k). auto.
Qed.
Lemma index_missing l x : ~ In x l -> index l x = Raises "ValueError".
Proof.
  induction l as [|y l IH]; cbn [index]; [reflexivity|]. intros N. destruct (Nat.eqb_spec y x) as [->|_]; [elim N; left; reflexivity|].
  rewrite IH; [reflexivity|]. intros I. apply N. right. exact I.
Qed.
Lemma filter_single (f : nat -> bool) n k : k < n -> f k = true -> (forall j, j < n -> f j = true -> j = k) -> filter f (seq 0 n) = [k].
Proof.
  intros K F U.
  assert (G : forall m s, (forall j, s <= j < s + m -> f j = true -> j = k) -> filter f (seq s m) = if ((s <=? k) && (k <? s + m))%bool then [k] else []).
  { induction m as [|m IH]; intros s H; cbn [seq filter].
    - destruct (Nat.leb_spec s k); cbn [andb]; [|reflexivity]. destruct (Nat.ltb_spec k (s + 0)); [lia|reflexivity].
    - rewrite IH by (intros j J; apply H; lia). destruct (f s) eqn:Fs.
      + assert (s = k) by (apply H; [lia|exact Fs]). subst s.
        destruct (Nat.leb_spec (S k) k); [lia|]. cbn [andb]. destruct (Nat.leb_spec k k); [|lia]. cbn [andb].
        destruct (Nat.ltb_spec k (k + S m)); [reflexivity|lia].
      + assert (s <> k) by congruence.
        destruct (Nat.leb_spec (S s) k), (Nat.leb_spec s k); try lia; cbn [andb]; [|reflexivity].
        replace (S s + m) with (s + S m) by lia. reflexivity. }
  rewrite G by (intros j J; apply U; lia). cbn [andb Nat.leb]. destruct (Nat.ltb_spec k (0 + n)); [reflexivity|lia].
Qed.
Theorem C59_ordered cells vols : one_to_one cells vols ->
  exists oc, set_ordered_cells cells vols = Ok oc /\ Permutation cells oc /\
    forall j v, j < List.length cells -> nth_error vols j = Some v -> exists c, nth_error oc j = Some c /\ fits c v.
Proof.
  intros (LE & SURJ & UNIQ & TOT). set (n := List.length cells) in *.
  destruct (nth_error cells 0) as [c0|] eqn:EC.
  2: { apply nth_error_None in EC. exists []. destruct cells; [|cbn [List.length] in EC; lia]. repeat split; [constructor|]. intros j v J. cbn in n. lia. }
  assert (NE : 0 < n) by (apply nth_error_Some; congruence).
  pose (sigma := fun i => match filter (fun j => isclose (det3 (lattice (nth i cells c0))) (nth j vols NaN)) (seq 0 n) with k :: _ => k | [] => 0 end).
  assert (SG : forall i c, nth_error cells i = Some c -> filter (fun j => isclose (det3 (lattice c)) (nth j vols NaN)) (seq 0 n) = [sigma i] /\
     sigma i < n /\ fits c (nth (sigma i) vols NaN)).
  { intros i c N. assert (I : In c cells) by (eapply nth_error_In; exact N).
    destruct (TOT c I) as (j & v & J & V & F).
    assert (FJ : filter (fun j => isclose (det3 (lattice c)) (nth j vols NaN)) (seq 0 n) = [j]).
    { apply filter_single; [exact J| |].
      - apply isclose_fits. now rewrite (nth_error_nth vols j NaN V).
      - intros j' J' F'. apply isclose_fits in F'. apply (UNIQ c j' j (nth j' vols NaN) v I); try assumption. apply nth_error_nth'. lia. }
    unfold sigma. rewrite (nth_error_nth cells i c0 N), FJ. repeat split; [exact J|]. now rewrite (nth_error_nth vols j NaN V). }
  assert (IX : indexes cells vols = Ok (map sigma (seq 0 n))).
  { apply indexes_sigma; [exact LE|]. intros i c N. now apply SG. }
  assert (ONTO : forall j, j < n -> In j (map sigma (seq 0 n))).
  { intros j J. destruct (SURJ j (nth j vols NaN) J) as (c & I & F); [apply nth_error_nth'; lia|].
    apply In_nth_error in I. destruct I as [i N]. destruct (SG i c N) as (_ & S1 & S2).
    assert (i < n) by (apply nth_error_Some; congruence).
    replace j with (sigma i); [apply in_map, in_seq; lia|].
    apply (UNIQ c (sigma i) j (nth (sigma i) vols NaN) (nth j vols NaN)); try assumption; try (apply nth_error_nth'; lia). eapply nth_error_In; exact N. }
  assert (ND : NoDup (map sigma (seq 0 n))).
  { apply (NoDup_incl_NoDup (l := seq 0 n)); [apply seq_NoDup|now rewrite map_length|]. intros j J. apply in_seq in J. apply ONTO. lia. }
  pose (tau := fun j => match index (map sigma (seq 0 n)) j with Ok k => k | _ => 0 end).
  assert (TA : forall j, j < n -> index (map sigma (seq 0 n)) j = Ok (tau j) /\ tau j < n /\ sigma (tau j) = j).
  { intros j J. destruct (index_found _ _ (ONTO j J)) as (k & E & K). unfold tau. rewrite E.
    assert (k < n) by (rewrite <- (seq_length n 0), <- (map_length sigma); apply nth_error_Some; congruence).
    split; [reflexivity|]. split; [assumption|].
    assert (Q : nth_error (map sigma (seq 0 n)) k = Some (sigma k)).
    { apply map_nth_error. rewrite (nth_error_nth' _ 0) by (rewrite seq_length; lia). now rewrite seq_nth by lia. }
    congruence. }
  exists (map (fun j => nth (tau j) cells c0) (seq 0 n)).
  assert (EQ : set_ordered_cells cells vols = Ok (map (fun j => nth (tau j) cells c0) (seq 0 n))).
  { unfold set_ordered_cells. rewrite IX. cbn [bind]. apply each_ok. fold n.
    assert (G : forall l, (forall j, In j l -> j < n) -> Forall2 (fun i c => (let? k := index (map sigma (seq 0 n)) i in item cells k) = Ok c) l (map (fun j => nth (tau j) cells c0) l)).
    { induction l as [|j l IHl]; intros H; cbn [map]; constructor.
      - destruct (TA j (H j (or_introl eq_refl))) as (-> & T & _). cbn [bind]. unfold item. now rewrite (nth_error_nth' cells c0) by exact T.
      - apply IHl. intros k K. apply H. right. exact K. }
    apply G. intros j J. apply in_seq in J. lia. }
  split; [exact EQ|]. split.
  - assert (P : Permutation (seq 0 n) (map tau (seq 0 n))).
    { apply NoDup_Permutation_bis; [apply seq_NoDup|now rewrite map_length|].
      intros k K. apply in_seq in K. apply in_map_iff. exists (sigma k).
      destruct (nth_error cells k) as [c|] eqn:N; [|apply nth_error_None in N; unfold n in K; lia].
      destruct (SG k c N) as (_ & S1 & _). destruct (TA (sigma k) S1) as (_ & T & ST). split; [|apply in_seq; lia].
      apply (NoDup_nth (map sigma (seq 0 n)) 0) ; [exact ND|rewrite map_length, seq_length; exact T|rewrite map_length, seq_length; lia|].
      rewrite !(nth_indep _ 0 (sigma 0)) by (rewrite map_length, seq_length; lia). rewrite !map_nth, !seq_nth by lia. exact ST. }
    apply (Permutation_map (fun k => nth k cells c0)) in P. rewrite map_map in P.
    replace cells with (map (fun k => nth k cells c0) (seq 0 n)) at 1; [exact P|].
    clear. subst n. apply nth_ext with (d := c0) (d' := c0); [now rewrite map_length, seq_length|].
    intros k K. rewrite map_length, seq_length in K.
    rewrite (nth_indep _ c0 (nth 0 cells c0)) by (now rewrite map_length, seq_length).
    rewrite (map_nth (fun k => nth k cells c0)). now rewrite seq_nth by exact K.
  - intros j v J V. destruct (TA j J) as (_ & T & ST). exists (nth (tau j) cells c0). split.
    + rewrite (map_nth_error _ j (seq 0 n) (d := j)); [reflexivity|]. rewrite (nth_error_nth' _ 0) by (rewrite seq_length; lia). now rewrite seq_nth by lia.
    + destruct (SG (tau j) (nth (tau j) cells c0)) as (_ & _ & F); [now apply nth_error_nth'|]. rewrite ST in F.
      now rewrite (nth_error_nth vols j NaN V) in F.
Qed.
(** A volume that no cell has is an exception. *)
Theorem C59_no_cell cells vols j v : List.length cells <= List.length vols -> j < List.length cells -> nth_error vols j = Some v ->
  (forall c, In c cells -> ~ fits c v) -> exists e, set_ordered_cells cells vols = Raises e.
Proof.
  intros LE J V NF. unfold set_ordered_cells.
  assert (IX : exists l, indexes cells vols = Ok l /\ ~ In j l).
  { unfold indexes. set (n := List.length cells) in *.
    assert (G : forall l, (forall c, In c l -> ~ fits c v) -> exists ll, each (fun c => matches (det3 (lattice c)) vols n) l = Ok ll /\ ~ In j (List.concat ll)).
    { induction l as [|c l IH]; intros F; cbn [each]; [exists []; auto|].
      rewrite matches_all by exact LE. cbn [bind]. destruct IH as (ll & -> & NI); [intros x X; apply F; right; exact X|]. cbn [bind].
      eexists; split; [reflexivity|]. cbn [List.concat]. intros I. apply in_app_or in I. destruct I as [I|I]; [|contradiction].
      apply filter_In in I. destruct I as [_ I]. apply isclose_fits in I. rewrite (nth_error_nth vols j NaN V) in I.
      apply (F c (or_introl eq_refl) I). }
    destruct (G cells NF) as (ll & -> & NI). cbn [bind]. eauto. }
  destruct IX as (l & -> & NI). cbn [bind].
  assert (G : forall m s, s <= j < s + m -> exists e, each (fun i => let? k := index l i in item cells k) (seq s m) = Raises e).
  { induction m as [|m IH]; intros s H; [lia|]. cbn [seq each].
    destruct (Nat.eq_dec s j) as [->|N].
    - rewrite index_missing by exact NI. eexists; reflexivity.
    - destruct (let? k := index l s in item cells k) as [c|e|] eqn:E; cbn [bind]; [|eauto|].
      + destruct (IH (S s)) as [e ->]; [lia|]. eexists; reflexivity.
      + exfalso. clear - E. assert (NI : forall l x, index l x <> Hangs).
        { induction l0 as [|y l0 IH]; intros x; cbn [index]; [discriminate|]. destruct (y =? x); [discriminate|].
          destruct (index l0 x) eqn:Q; cbn [bind]; try discriminate. now elim (IH x). }
        destruct (index l s) as [k| |] eqn:Q; cbn [bind] in E; try discriminate; [|now elim (NI l s)].
        unfold item in E. destruct (nth_error cells k); discriminate. }
  apply G. lia.
Qed.
(** Two volumes within the tolerance of each other can shift the list: here all
    but the first volume are given the cell of another one, without any error. *)
Definition box (v : R) : cell := {| natom := 1; numbers := [14%Z]; positions := [];
  lattice := rows3 (row (Num v) (Num 0) (Num 0)) (row (Num 0) (Num 1) (Num 0)) (row (Num 0) (Num 0) (Num 1)) |}.
Lemma box_det v : det3 (lattice (box v)) = Num v.
Proof. cbv [det3 lattice box rows3 row nth fadd fsub fmul fop]. f_equal. ring. Qed.
Lemma box_fits v w : isclose (det3 (lattice (box v))) (Num w) = if Rle_dec (Rabs (v - w)) (1 / 10 ^ 8 + 1 / 10 ^ 5 * Rabs w) then true else false.
Proof. rewrite box_det. reflexivity. Qed.
Lemma box_close v w : (0 < w)%R -> (- (w / 10 ^ 5) <= v - w <= w / 10 ^ 5)%R -> isclose (det3 (lattice (box v))) (Num w) = true.
Proof.
  intros W H. rewrite box_fits. destruct (Rle_dec _ _) as [_|N]; [reflexivity|]. elim N. rewrite (Rabs_pos_eq w) by lra.
  apply Rabs_le. lra.
Qed.
Lemma box_far v w : (1 < w < 2000)%R -> (v - w < -1 \/ 1 < v - w)%R -> isclose (det3 (lattice (box v))) (Num w) = false.
Proof.
  intros W H. rewrite box_fits. destruct (Rle_dec _ _) as [N|_]; [|reflexivity]. exfalso. rewrite (Rabs_pos_eq w) in N by lra.
  assert (Rabs (v - w) > 1)%R by (destruct H as [H|H]; [rewrite Rabs_left by lra|rewrite Rabs_pos_eq by lra]; lra). lra.
Qed.
Definition six : list R := [1000; 1000 + 1 / 1000; 1010; 1020; 1030; 1040]%R.
Definition six_found : list R := [1000; 1010; 1020; 1030; 1040; 1000 + 1 / 1000]%R.
Theorem C59_close_volumes_refuted : exists cells vols oc,
  NoDup vols /\ Permutation (map (fun c => det3 (lattice c)) cells) vols /\
  set_ordered_cells cells vols = Ok oc /\ forall j, 1 <= j < 6 -> exists c v, nth_error oc j = Some c /\ nth_error vols j = Some v /\ ~ fits c v.
Proof.
  exists (map box six_found), (map Num six), (map box six_found).
  assert (IX : indexes (map box six_found) (map Num six) = Ok [0; 1; 2; 3; 4; 5; 0; 1]).
  { unfold indexes. cbn [map six six_found List.length each]. rewrite !matches_all by (cbn [map six List.length]; lia). cbn [bind seq filter nth].
    rewrite (box_close 1000 1000), (box_close 1000 (1000 + 1 / 1000)), (box_close (1000 + 1 / 1000) 1000), (box_close (1000 + 1 / 1000) (1000 + 1 / 1000)) by lra.
    rewrite (box_close 1010 1010), (box_close 1020 1020), (box_close 1030 1030), (box_close 1040 1040) by lra.
    rewrite !box_far by lra. reflexivity. }
  split; [|split; [|split]].
  - repeat constructor; cbn [In]; intros H; repeat (destruct H as [H|H]; [injection H as H; lra|]); exact H.
  - rewrite map_map, (map_ext _ Num) by (intros; apply box_det). apply Permutation_map. unfold six, six_found.
    constructor. symmetry. apply (Permutation_cons_append [1010; 1020; 1030; 1040]%R).
  - unfold set_ordered_cells. rewrite IX. reflexivity.
  - intros j J. assert (F : forall v w, isclose (det3 (lattice (box v))) (Num w) = false -> ~ fits (box v) (Num w)).
    { intros v w Q H. apply isclose_fits in H. congruence. }
    destruct j as [|[|[|[|[|[|j]]]]]]; try lia; do 2 eexists; (split; [reflexivity|]; split; [reflexivity|]); apply F, box_far; lra.
Qed.
(** ** The table of volumes and energies *)
Definition two_words (data : list string) (i : nat) : Prop := exists l, nth_error data i = Some l /\ List.length (split l) = 2.
Lemma count_pairs_spec data : forall fuel i n, count_pairs fuel data i = Ok n ->
  n <= fuel /\ (forall k, k < n -> two_words data (i + k)) /\
  (n < fuel -> exists l, nth_error data (i + n) = Some l /\ List.length (split l) <> 2).
Proof.
  induction fuel as [|f IH]; intros i n E; cbn [count_pairs] in E.
  - injection E as <-. repeat split; try lia.
  - destruct (tokens data i) as [t| |] eqn:T; cbn [bind] in E; try discriminate. destruct (tokens_inv _ _ _ T) as (l & N & ->).
    destruct (Nat.eqb_spec (List.length (split l)) 2) as [Q|Q].
    + destruct (count_pairs f data (S i)) as [m| |] eqn:C; cbn [bind] in E; try discriminate. injection E as <-.
      destruct (IH _ _ C) as (A & B & D). split; [lia|]. split.
      * intros [|k] K; [rewrite Nat.add_0_r; exists l; auto|]. replace (i + S k) with (S i + k) by lia. apply B. lia.
      * intros L. destruct D as (l' & N' & Q'); [lia|]. exists l'. replace (i + S m) with (S i + m) by lia. auto.
    + injection E as <-. split; [lia|]. split; [lia|]. intros _. rewrite Nat.add_0_r. exists l. auto.
Qed.
Theorem C59_points data n : set_qha_points data = Ok n ->
  n <= 100 /\ (forall k, k < n -> two_words data (ev_line data + k)) /\
  (n < 100 -> exists l, nth_error data (ev_line data + n) = Some l /\ List.length (split l) <> 2).
Proof. apply count_pairs_spec. Qed.
(** Longer tables are cut at 100 points. *)
Theorem C59_cut_refuted data : (forall k, k < 100 -> two_words data (ev_line data + k)) -> set_qha_points data = Ok 100.
Proof.
  unfold set_qha_points. generalize (ev_line data) as i. generalize 100 as f. induction f as [|f IH]; intros i H; cbn [count_pairs]; [reflexivity|].
  destruct (H 0 ltac:(lia)) as (l & N & L). rewrite Nat.add_0_r in N. unfold tokens, item. rewrite N. cbn [bind]. rewrite L, Nat.eqb_refl.
  rewrite IH; [reflexivity|]. intros k K. replace (S i + k) with (i + S k) by lia. apply H. lia.
Qed.
Lemma column_printed k data n c : ev_column k data n = Ok c ->
  List.length c = n /\ forall p, p < n -> exists v, nth_error c p = Some v /\ number_at data (ev_line data + p) k v.
Proof.
  intros E. destruct (each_nth _ _ _ E) as [L N]. rewrite seq_length in L. split; [exact L|]. intros p P.
  destruct (N p p) as (v & V & F); [rewrite (nth_error_nth' _ 0) by (rewrite seq_length; lia); now rewrite seq_nth by lia|].
  exists v. split; [exact V|]. destruct (tokens data (ev_line data + p)) as [t| |] eqn:T; cbn [bind] in F; try discriminate.
  destruct (tokens_inv _ _ _ T) as (l & NE & ->). unfold item in F. destruct (nth_error (split l) k) as [w|] eqn:W; cbn [bind] in F; [|discriminate].
  exists l, w. repeat split; try assumption. now apply to_float_ok.
Qed.
(** ** Frequencies *)
(** The k-th block of frequencies: the line headed FREQUENCY #. *)
Definition is_block (l : string) : Prop := contains qha_freq l = true /\ exists r, split l = "FREQUENCY" :: r.
Definition block_lines (data : list string) (l : list nat) : Prop :=
  NoDup l /\ (forall i, In i l <-> exists x, nth_error data i = Some x /\ is_block x) /\ forall a b i j, a < b -> nth_error l a = Some i -> nth_error l b = Some j -> i < j.
Lemma freq_lines_blocks data : exists l, block_lines data l /\ freq_lines data = map (fun i => i + 3) l.
Proof.
  unfold freq_lines.
  assert (G : forall rest s, exists l, freq_lines_from s rest = map (fun i => i + 3) l /\ NoDup l /\
     (forall i, In i l <-> s <= i /\ exists x, nth_error rest (i - s) = Some x /\ is_block x) /\
     (forall a b i j, a < b -> nth_error l a = Some i -> nth_error l b = Some j -> i < j)).
  { induction rest as [|x rest IH]; intros s; cbn [freq_lines_from].
    - exists []. split; [reflexivity|]. split; [constructor|]. split.
      + intros i. split; [intros []|]. intros (_ & y & N & _). destruct (i - s); discriminate.
      + intros [|a] b i j _ N; discriminate.
    - destruct (IH (S s)) as (l & -> & ND & IN & SO).
      assert (SUB : forall i, In i l -> s < i) by (intros i I; apply IN in I; lia).
      assert (ST : forall i, i <> s -> s <= i -> nth_error (x :: rest) (i - s) = nth_error rest (i - S s)).
      { intros i N L. replace (i - s) with (S (i - S s)) by lia. reflexivity. }
      assert (YES : is_block x -> exists l', (s + 3) :: map (fun i => i + 3) l = map (fun i => i + 3) l' /\ NoDup l' /\
        (forall i, In i l' <-> s <= i /\ exists y, nth_error (x :: rest) (i - s) = Some y /\ is_block y) /\
        (forall a b i j, a < b -> nth_error l' a = Some i -> nth_error l' b = Some j -> i < j)).
      { intros B. exists (s :: l). split; [reflexivity|]. split; [constructor; [intros I; apply SUB in I; lia|exact ND]|]. split.
        - intros i. cbn [In]. split.
          + intros [<-|I]; [split; [lia|]; rewrite Nat.sub_diag; exists x; auto|].
            pose proof (SUB i I). apply IN in I. destruct I as (_ & y & N & Y). split; [lia|]. exists y. rewrite ST by lia. auto.
          + intros (L & y & N & Y). destruct (Nat.eq_dec s i) as [E|E]; [left; exact E|right]. apply IN. split; [lia|]. exists y. rewrite ST in N by lia. auto.
        - intros [|a] [|b] i j L N M; try lia; cbn [nth_error] in N, M.
          + injection N as <-. apply SUB. eapply nth_error_In; exact M.
          + apply (SO a b); try assumption. lia. }
      assert (NO : ~ is_block x -> exists l', map (fun i => i + 3) l = map (fun i => i + 3) l' /\ NoDup l' /\
        (forall i, In i l' <-> s <= i /\ exists y, nth_error (x :: rest) (i - s) = Some y /\ is_block y) /\
        (forall a b i j, a < b -> nth_error l' a = Some i -> nth_error l' b = Some j -> i < j)).
      { intros B. exists l. split; [reflexivity|]. split; [exact ND|]. split; [|exact SO].
        intros i. split.
        - intros I. pose proof (SUB i I). apply IN in I. destruct I as (_ & y & N & Y). split; [lia|]. exists y. rewrite ST by lia. auto.
        - intros (L & y & N & Y). destruct (Nat.eq_dec s i) as [E|E].
          + subst i. rewrite Nat.sub_diag in N. cbn [nth_error] in N. injection N as <-. contradiction.
          + apply IN. split; [lia|]. exists y. rewrite ST in N by lia. auto. }
      destruct (contains qha_freq x) eqn:C.
      + destruct (split x) as [|t r] eqn:SP.
        * apply NO. intros (_ & r & Q). congruence.
        * destruct (String.eqb_spec t "FREQUENCY") as [->|N].
          -- apply YES. split; [exact C|]. exists r. exact SP.
          -- apply NO. intros (_ & r' & Q). congruence.
      + apply NO. intros (Q & _). congruence. }
  destruct (G data 0) as (l & E & ND & IN & SO). exists l. split; [|exact E]. split; [exact ND|]. split; [|exact SO].
  intros i. rewrite IN. rewrite Nat.sub_0_r. split; [intros (_ & H); exact H|]. intros H. split; [lia|exact H].
Qed.
Lemma freq_row_printed data n i r l : freq_lines data = map (fun i => i + 3) l -> 0 < n -> freq_row data n i = Ok r ->
  List.length r = n /\ exists b, nth_error l i = Some b /\ forall p, p < n -> exists v, nth_error r p = Some v /\ number_at data (b + 3 + p) 1 v.
Proof.
  intros FL NP E. destruct (each_nth _ _ _ E) as [L N]. rewrite seq_length in L. split; [exact L|].
  assert (SQ : forall p, p < n -> nth_error (seq 0 n) p = Some p) by (intros p P; rewrite (nth_error_nth' _ 0) by (rewrite seq_length; lia); now rewrite seq_nth by lia).
  destruct (nth_error l i) as [b|] eqn:B.
  - exists b. split; [reflexivity|]. intros p P. destruct (N p p (SQ p P)) as (v & V & F). exists v. split; [exact V|].
    rewrite FL in F. unfold item at 1 in F. rewrite (map_nth_error _ _ _ B) in F. cbn [bind] in F.
    destruct (tokens data (b + 3 + p)) as [t| |] eqn:T; cbn [bind] in F; try discriminate.
    destruct (tokens_inv _ _ _ T) as (x & NE & ->). unfold item in F. destruct (nth_error (split x) 1) as [w|] eqn:W; cbn [bind] in F; [|discriminate].
    exists x, w. repeat split; try assumption. now apply to_float_ok.
  - exfalso. destruct (N 0 0 (SQ 0 NP)) as (v & _ & F). rewrite FL in F. unfold item at 1 in F.
    rewrite nth_error_map, B in F. discriminate.
Qed.
(** Frequency of mode m at q point q and volume p: the second word of line p of
    block number q * modes + m. *)
Theorem C59_frequencies data modes q n ph : 0 < n -> qha_phonons data modes q n = Ok ph ->
  exists blocks, block_lines data blocks /\ List.length ph = q /\
  forall a m p, a < q -> m < modes -> p < n -> exists band row b v,
    nth_error ph a = Some band /\ List.length band = modes /\ nth_error band m = Some row /\ nth_error row p = Some v /\
    nth_error blocks (a * modes + m) = Some b /\ number_at data (b + 3 + p) 1 v.
Proof.
  intros NP E. destruct (freq_lines_blocks data) as (l & BL & FL). exists l. split; [exact BL|].
  unfold qha_phonons in E. destruct (each (freq_row data n) (seq 0 (modes * q))) as [rows| |] eqn:R; cbn [bind] in E; try discriminate.
  injection E as <-. destruct (each_nth _ _ _ R) as [LR NR]. rewrite seq_length in LR. split; [now rewrite map_length, seq_length|].
  intros a m p A M P. set (k := a * modes + m).
  assert (K : k < modes * q) by (unfold k; nia).
  destruct (NR k k) as (r & NK & FR); [rewrite (nth_error_nth' _ 0) by (rewrite seq_length; lia); now rewrite seq_nth by lia|].
  destruct (freq_row_printed data n k r l FL NP FR) as (LRW & b & B & PV). destruct (PV p P) as (v & V & NA).
  exists (firstn modes (skipn (a * modes) rows)), r, b, v. repeat split; try assumption.
  - rewrite (map_nth_error _ a (seq 0 q) (d := a)); [reflexivity|]. rewrite (nth_error_nth' _ 0) by (rewrite seq_length; lia). now rewrite seq_nth by lia.
  - rewrite firstn_length, skipn_length, LR. nia.
  - assert (G : forall (A : Type) (l : list A) s m w, m < w -> nth_error (firstn w (skipn s l)) m = nth_error l (s + m)).
    { intros T l0. induction l0 as [|x l0 IH]; intros s m0 w W.
      - rewrite skipn_nil, firstn_nil. assert (Q : forall k, nth_error (@nil T) k = None) by (intros [|?]; reflexivity). now rewrite !Q.
      - destruct s as [|s]; cbn [skipn Nat.add].
        + destruct w as [|w]; [lia|]. destruct m0 as [|m0]; cbn [firstn nth_error]; [reflexivity|].
          specialize (IH 0 m0 w ltac:(lia)). cbn [skipn Nat.add] in IH. exact IH.
        + cbn [nth_error]. now apply IH. }
    rewrite G by exact M. exact NK.
Qed.

(** ** The whole reading *)
Lemma qha_completed data c c' : qha_load data c = (c', QhaCompleted) ->
  exists n m k v cells oc e modes ph,
    set_qha_points data = Ok n /\ 4 <= n /\ has qha_restart data = false /\
    (if has supercell_option data then expansion_at data (start_line_or_end supercell_expansion data + 1) = Ok m else m = q_dim c) /\
    kpoints m = Ok k /\ qha_volumes data n = Ok v /\ set_unit_cells data = Ok cells /\ set_ordered_cells cells v = Ok oc /\
    qha_energies data n = Ok e /\
    (exists c0, nth_error oc 0 = Some c0 /\ k <> 0%Z /\ (0 <= Z.quot (Z.of_nat (natom c0)) k)%Z /\ (0 <= k)%Z /\ modes = Z.to_nat (Z.quot (Z.of_nat (natom c0)) k) * 3) /\
    qha_phonons data modes (Z.to_nat k) n = Ok ph /\
    c' = {| q_points := n; q_cells := oc; q_dim := m; q_energy := e; q_qpoints := k;
            q_coords := overwrite (q_coords c) (dummy_coords k); q_weights := overwrite (q_weights c) (dummy_weights k); q_phonons := ph |}.
Proof.
  unfold qha_load. destruct (has qha_header data); cbn [negb]; [|discriminate].
  destruct (set_qha_points data) as [n| |]; cbn [andthen]; try discriminate.
  destruct (Nat.ltb_spec n 1); [discriminate|]. destruct (Nat.ltb_spec n 4); [discriminate|].
  destruct (has qha_restart data); [discriminate|].
  set (em := if has supercell_option data then _ else _).
  destruct em as [m| |] eqn:EM; cbn [andthen]; try discriminate. cbn [q_dim with_dim].
  destruct (kpoints m) as [k| |] eqn:K; cbn [andthen]; try discriminate.
  destruct (qha_volumes data n) as [v| |] eqn:QV; cbn [andthen]; try discriminate.
  destruct (set_unit_cells data) as [cells| |]; cbn [andthen]; try discriminate.
  destruct (set_ordered_cells cells v) as [oc| |] eqn:SO; cbn [andthen]; try discriminate.
  destruct (qha_energies data n) as [e| |] eqn:QE; cbn [andthen]; try discriminate.
  set (c5 := with_energy _ e). destruct (qha_modes c5) as [modes| |] eqn:QM; cbn [andthen]; try discriminate.
  change (q_qpoints c5) with k. destruct (qha_phonons data modes (Z.to_nat k) n) as [ph| |] eqn:QP; cbn [andthen]; try discriminate.
  intros Q. assert (EC : c' = with_phonons c5 ph) by congruence.
  exists n, m, k, v, cells, oc, e, modes, ph. split; [reflexivity|]. split; [lia|]. split; [reflexivity|]. split.
  { unfold em in EM. destruct (has supercell_option data); [exact EM|]. cbn [q_dim with_points] in EM. congruence. }
  split; [exact K|]. split; [exact QV|]. split; [reflexivity|]. split; [exact SO|]. split; [exact QE|]. split.
  { unfold qha_modes, qha_natom in QM. change (q_cells c5) with oc in QM. change (q_dim c5) with m in QM. change (q_qpoints c5) with k in QM.
    unfold item in QM. destruct (nth_error oc 0) as [c0|]; cbn [bind] in QM; [|discriminate]. rewrite K in QM. cbn [bind] in QM.
    destruct (Z.eqb_spec k 0); cbn [bind] in QM; [discriminate|].
    destruct (Z.ltb_spec (Z.quot (Z.of_nat (natom c0)) k) 0); cbn [orb] in QM; [discriminate|].
    destruct (Z.ltb_spec k 0); cbn [orb] in QM; [discriminate|]. exists c0. repeat split; try assumption; congruence. }
  split; [exact QP|]. exact EC.
Qed.
(** Point p: energy and volume from line p of the table, its own cell, and line
    p of every block of frequencies. *)
Theorem C59_pairing data c c' : qha_load data c = (c', QhaCompleted) ->
  exists cells vols modes, set_unit_cells data = Ok cells /\ List.length vols = q_points c' /\ 4 <= q_points c' <= 100 /\
    (forall p, p < q_points c' -> exists v e, nth_error vols p = Some v /\ number_at data (ev_line data + p) 0 v /\
       nth_error (q_energy c') p = Some e /\ number_at data (ev_line data + p) 1 e) /\
    (one_to_one cells vols -> Permutation cells (q_cells c') /\
       forall p v, p < List.length cells -> nth_error vols p = Some v -> exists x, nth_error (q_cells c') p = Some x /\ fits x v) /\
    qha_phonons data modes (Z.to_nat (q_qpoints c')) (q_points c') = Ok (q_phonons c').
Proof.
  intros E. destruct (qha_completed _ _ _ E) as (n & m & k & v & cells & oc & e & modes & ph & N & N4 & _ & _ & _ & V & CE & SO & EN & _ & PH & ->).
  cbn [q_points q_energy q_cells q_qpoints q_phonons]. exists cells, v, modes.
  destruct (column_printed 0 data n v V) as [LV PV]. destruct (column_printed 1 data n e EN) as [LE PE].
  split; [exact CE|]. split; [exact LV|]. split; [split; [exact N4|exact (proj1 (C59_points _ _ N))]|]. split.
  - intros p P. destruct (PV p P) as (a & A & A'), (PE p P) as (b & B & B'). exists a, b. auto.
  - split; [|exact PH]. intros OO. destruct (C59_ordered cells v OO) as (oc' & SO' & PM & F).
    replace oc' with oc in * by congruence. auto.
Qed.
(** Reported volumes and energies are those of the cells, per unit cell. *)
Theorem C59_reported data c c' E : qha_load data c = (c', QhaCompleted) -> nums (q_dim c') E -> integral E -> rdet E <> 0%R ->
  (forall es, qha_energy c' = Ok es -> forall p x, nth_error (q_energy c') p = Some (Num x) -> exists y, nth_error es p = Some (Num y) /\ (y * rdet E = x)%R) /\
  (forall vs, qha_volume c' = Ok vs -> forall p b x, p < q_points c' -> nth_error (q_cells c') p = Some b -> det3 (lattice b) = Num x ->
     exists y, nth_error vs p = Some (Num y) /\ (y * rdet E = x)%R).
Proof.
  intros _ HE I ND. destruct (det_integral E I) as [n D]. pose proof (kpoints_integral _ _ n HE D) as K.
  assert (N0 : IZR n <> 0%R) by (rewrite <- D; exact ND). split.
  - intros es Q p x X. unfold qha_energy in Q. rewrite K in Q. cbn [bind] in Q.
    assert (INJ : forall a b : list fl, Ok a = Ok b -> b = a) by congruence. apply INJ in Q. subst es.
    exists (x / IZR n)%R. rewrite (map_nth_error _ _ _ X). split; [reflexivity|]. rewrite D. field. exact N0.
  - intros vs Q p b x P B X. unfold qha_volume in Q.
    destruct (each _ (seq 0 (q_points c'))) as [l| |] eqn:EE; cbn [bind] in Q; try discriminate. rewrite K in Q. cbn [bind] in Q.
    assert (INJ : forall a b : list fl, Ok a = Ok b -> b = a) by congruence. apply INJ in Q. subst vs.
    destruct (each_nth _ _ _ EE) as [_ NN]. destruct (NN p p) as (y & Y & F); [rewrite (nth_error_nth' _ 0) by (rewrite seq_length; lia); now rewrite seq_nth by lia|].
    unfold item in F. rewrite B in F. cbn [bind] in F. rewrite X in F. injection F as <-.
    exists (x / IZR n)%R. rewrite (map_nth_error _ _ _ Y). split; [reflexivity|]. rewrite D. field. exact N0.
Qed.
(** ** One reader after another: C38 *)
Theorem C38_qha_isolated data c c' d d' : qha_load data c = (c', QhaCompleted) -> qha_load data d = (d', QhaCompleted) ->
  has supercell_option data = true \/ q_dim c = q_dim d ->
  q_points c' = q_points d' /\ q_cells c' = q_cells d' /\ q_dim c' = q_dim d' /\ q_energy c' = q_energy d' /\
  q_qpoints c' = q_qpoints d' /\ q_phonons c' = q_phonons d'.
Proof.
  intros A B H.
  destruct (qha_completed _ _ _ A) as (n & m & k & v & cells & oc & e & modes & ph & N & _ & _ & M & K & V & CE & SO & EN & (c0 & C0 & _ & _ & _ & MO) & PH & ->).
  destruct (qha_completed _ _ _ B) as (n' & m' & k' & v' & cells' & oc' & e' & modes' & ph' & N' & _ & _ & M' & K' & V' & CE' & SO' & EN' & (c0' & C0' & _ & _ & _ & MO') & PH' & ->).
  cbn [q_points q_cells q_dim q_energy q_qpoints q_phonons].
  replace n' with n in * by congruence.
  assert (EM : m = m').
  { destruct H as [H|H]; [rewrite H in M, M'; congruence|]. destruct (has supercell_option data); congruence. }
  subst m'. replace k' with k in * by congruence. replace v' with v in * by congruence. replace cells' with cells in * by congruence.
  replace oc' with oc in * by congruence. replace e' with e by congruence. replace c0' with c0 in * by congruence.
  replace modes' with modes in * by congruence. replace ph' with ph by congruence. repeat split.
Qed.
(** The supercell matrix of an earlier file stays in force for files that have none. *)
Theorem C38_qha_stale_dim data c : has supercell_option data = false -> q_dim (fst (qha_load data c)) = q_dim c.
Proof.
  intros S0. unfold qha_load. destruct (has qha_header data); cbn [negb]; [|reflexivity].
  destruct (set_qha_points data) as [n| |]; cbn [andthen]; try reflexivity.
  destruct (n <? 1); [reflexivity|]. destruct (n <? 4); [reflexivity|]. destruct (has qha_restart data); [reflexivity|]. rewrite S0. cbn [andthen].
  destruct (kpoints _); cbn [andthen]; try reflexivity. destruct (qha_volumes data n); cbn [andthen]; try reflexivity.
  destruct (set_unit_cells data); cbn [andthen]; try reflexivity. destruct (set_ordered_cells _ _); cbn [andthen]; try reflexivity.
  destruct (qha_energies data n); cbn [andthen]; try reflexivity. destruct (qha_modes _); cbn [andthen]; try reflexivity.
  destruct (qha_phonons _ _ _ _); reflexivity.
Qed.
(** So do the weights of q points beyond those of the present file. *)
Theorem C38_qha_stale_weights data c c' : qha_load data c = (c', QhaCompleted) ->
  List.length (q_weights c') = Nat.max (Z.to_nat (q_qpoints c')) (List.length (q_weights c)).
Proof.
  intros E. destruct (qha_completed _ _ _ E) as (n & m & k & v & cells & oc & e & modes & ph & _ & _ & _ & _ & _ & _ & _ & _ & _ & _ & _ & ->).
  cbn [q_weights q_qpoints]. unfold overwrite, dummy_weights. rewrite app_length, skipn_length, !repeat_length. lia.
Qed.
(** A file with fewer optimized geometries than volumes is called complete, and
    its volumes cannot be had. *)
Theorem C59_missing_cells data c c' : qha_load data c = (c', QhaCompleted) -> List.length (q_cells c') < q_points c' ->
  qha_volume c' = Raises "IndexError".
Proof.
  intros _ L. unfold qha_volume.
  assert (G : forall m s, s <= List.length (q_cells c') < s + m ->
    each (fun i => let? x := item (q_cells c') i in Ok (det3 (lattice x))) (seq s m) = Raises "IndexError").
  { induction m as [|m IH]; intros s H; [lia|]. cbn [seq each]. unfold item at 1.
    destruct (nth_error (q_cells c') s) as [x|] eqn:N; cbn [bind]; [|reflexivity]. rewrite IH; [reflexivity|].
    assert (s < List.length (q_cells c')) by (apply nth_error_Some; congruence). lia. }
  rewrite G by lia. reflexivity.
Qed.
(** ** A case: four volumes, optimized in another order; two atoms *)
Definition qha_cell_text (v : string) : list string :=
  [" FINAL OPTIMIZED GEOMETRY"; ""; ""; ""; ""; ""; ""; ""; " ATOMS IN THE UNIT CELL: 2"; ""; "";
   "   1 T 14 SI 0 0 0"; "   2 F 14 SI 1 0 0"; " DIRECT LATTICE VECTORS CARTESIAN COMPONENTS"; " X Y Z"; (" " ++ v ++ " 0 0")%string; " 0 1 0"; " 0 0 1"].
Definition qha_block_text : list string := [" FREQUENCY #    1"; " VOLUME  FREQUENCY"; ""; " 8 211"; " 9 212"; " 10 213"; " 11 214"; ""].
Definition qha_super_text : list string :=
  [" * SUPERCELL OPTION"; " EXPANSION MATRIX OF PRIMITIVE CELL"; " E1 2 0 0"; " E2 0 1 0"; " E3 0 0 1"].
Definition qha_text (super : bool) (found : list string) : list string :=
  " QUASI-HARMONIC APPROXIMATION" :: (if super then qha_super_text else []) ++ List.concat (map qha_cell_text found) ++
  [" SORTING VOLUMES/ENERGIES"; ""; " VOLUME ENERGY"; ""; " 8 -100"; " 9 -102"; " 10 -101"; " 11 -99"; ""] ++
  List.concat (repeat qha_block_text 6).
Definition found4 := ["10"; "8"; "11"; "9"].
Definition qcell (z : Z) : cell :=
  {| natom := 2; numbers := [14%Z; 14%Z]; positions := [[whole 0; whole 0; whole 0]; [whole 1; whole 0; whole 0]];
     lattice := rows3 (row (whole z) (whole 0) (whole 0)) (row (whole 0) (whole 1) (whole 0)) (row (whole 0) (whole 0) (whole 1)) |}.
Lemma qcell_det z : det3 (lattice (qcell z)) = Num (IZR z).
Proof. cbv [det3 lattice qcell rows3 row nth fadd fsub fmul fop whole powerRZ]. f_equal. ring. Qed.
Lemma qcell_close z w : (0 < w < 1000)%Z -> isclose (det3 (lattice (qcell z))) (whole w) = Z.eqb z w.
Proof.
  intros W. rewrite qcell_det. unfold isclose, whole. replace (1 * IZR w * powerRZ 10 0)%R with (IZR w) by (cbn [powerRZ]; ring).
  destruct W as [W0 W1]. apply IZR_lt in W0, W1. rewrite (Rabs_pos_eq (IZR w)) by lra. destruct (Z.eqb_spec z w) as [->|N].
  - unfold Rminus. rewrite Rplus_opp_r, Rabs_R0. destruct (Rle_dec _ _) as [_|Q]; [reflexivity|]. elim Q. lra.
  - destruct (Rle_dec _ _) as [Q|_]; [|reflexivity]. exfalso.
    assert (1 <= Rabs (IZR z - IZR w))%R by (rewrite <- minus_IZR, <- abs_IZR; apply IZR_le; lia). lra.
Qed.
Definition vols4 := [whole 8; whole 9; whole 10; whole 11].
Definition cells4 := [qcell 10; qcell 8; qcell 11; qcell 9].
Lemma ordered4 : set_ordered_cells cells4 vols4 = Ok [qcell 8; qcell 9; qcell 10; qcell 11].
Proof.
  assert (IX : indexes cells4 vols4 = Ok [2; 0; 3; 1]).
  { unfold indexes. cbn [cells4 vols4 List.length each]. rewrite !matches_all by (cbn [vols4 List.length]; lia).
    cbn [bind seq filter nth vols4]. rewrite !qcell_close by lia. reflexivity. }
  unfold set_ordered_cells. rewrite IX. reflexivity.
Qed.
Lemma text4 super : set_qha_points (qha_text super found4) = Ok 4 /\ qha_volumes (qha_text super found4) 4 = Ok vols4 /\
  qha_energies (qha_text super found4) 4 = Ok (map (fun z => Num (-1 * IZR z * powerRZ 10 0)) [100; 102; 101; 99]%Z) /\
  set_unit_cells (qha_text super found4) = Ok cells4 /\ has qha_header (qha_text super found4) = true /\
  has qha_restart (qha_text super found4) = false /\ has supercell_option (qha_text super found4) = super.
Proof. destruct super; (split; [text|split; [text|split; [text|split; [text|split; [text|split; text]]]]]). Qed.
Definition frequencies4 : list fl := [whole 211; whole 212; whole 213; whole 214].
Lemma bands4 super : qha_phonons (qha_text super found4) 6 1 4 = Ok [repeat frequencies4 6] /\
  qha_phonons (qha_text super found4) 3 2 4 = Ok [repeat frequencies4 3; repeat frequencies4 3].
Proof. destruct super; split; text. Qed.
Lemma kpoints_one : kpoints identity3 = Ok 1%Z.
Proof. apply (kpoints_integral _ id3 _); [|exact rdet_id]. intros i j Hi Hj. unfold identity3, id3. now destruct (i =? j). Qed.
Lemma kpoints_two : kpoints out_dim = Ok 2%Z.
Proof. apply (kpoints_integral _ out_E _ out_nums_E). exact out_det_E. Qed.
Definition energies4 : list fl := map (fun z => Num (-1 * IZR z * powerRZ 10 0)) [100; 102; 101; 99]%Z.
Lemma qha_load4 (super : bool) (c : qha_class) : (if super then True else q_dim c = identity3 \/ q_dim c = out_dim) ->
  exists c', qha_load (qha_text super found4) c = (c', QhaCompleted) /\ q_points c' = 4 /\ q_cells c' = [qcell 8; qcell 9; qcell 10; qcell 11] /\
    q_energy c' = energies4 /\ q_dim c' = (if super then out_dim else q_dim c).
Proof.
  intros H. destruct (text4 super) as (N & V & E & C & HD & RS & SO). destruct (bands4 super) as [B1 B2].
  assert (EX : (if super then expansion_at (qha_text super found4) (start_line_or_end supercell_expansion (qha_text super found4) + 1) else Ok (q_dim c))
               = Ok (if super then out_dim else q_dim c)).
  { destruct super; [text|reflexivity]. }
  unfold qha_load. rewrite HD. cbn [negb]. rewrite N. cbn [andthen]. cbn [Nat.ltb Nat.leb]. rewrite RS, SO. cbn [q_dim with_points]. rewrite EX. cbn [andthen q_dim with_dim].
  assert (KM : (kpoints (if super then out_dim else q_dim c) = Ok 1%Z) \/ kpoints (if super then out_dim else q_dim c) = Ok 2%Z).
  { destruct super; [right; exact kpoints_two|]. destruct H as [-> | ->]; [left; exact kpoints_one|right; exact kpoints_two]. }
  destruct KM as [KM|KM]; rewrite KM; cbn [andthen]; rewrite V; cbn [andthen]; rewrite C; cbn [andthen]; rewrite ordered4; cbn [andthen]; rewrite E; cbn [andthen];
    unfold qha_modes, qha_natom; cbn [with_energy with_cells with_mesh with_dim with_points q_cells q_dim q_qpoints item nth_error bind]; rewrite KM; cbn [bind Z.eqb natom qcell].
  - change (Z.of_nat 2 ÷ 1)%Z with 2%Z. cbn [Z.ltb Z.compare orb andthen]. change (Z.to_nat 2 * 3) with 6. change (Z.to_nat 1) with 1. rewrite B1. cbn [andthen].
    eexists. split; [reflexivity|]. repeat split.
  - change (Z.of_nat 2 ÷ 2)%Z with 1%Z. cbn [Z.ltb Z.compare orb andthen]. change (Z.to_nat 1 * 3) with 3. change (Z.to_nat 2) with 2. rewrite B2. cbn [andthen].
    eexists. split; [reflexivity|]. repeat split.
Qed.
Example C59_instance : exists c', qha_load (qha_text false found4) qha_new = (c', QhaCompleted) /\
  q_cells c' = [qcell 8; qcell 9; qcell 10; qcell 11] /\ q_energy c' = energies4.
Proof. destruct (qha_load4 false qha_new (or_introl eq_refl)) as (c' & L & _ & C & E & _). exists c'. auto. Qed.
Example C59_one_to_one_instance : one_to_one cells4 vols4.
Proof.
  assert (F : forall z w, (0 < w < 1000)%Z -> fits (qcell z) (whole w) <-> z = w).
  { intros z w W. rewrite <- isclose_fits, qcell_close by exact W. apply Z.eqb_eq. }
  split; [cbn; lia|]. cbn [cells4 List.length]. split; [|split].
  - intros j v J V. destruct j as [|[|[|[|j]]]]; [..|lia]; cbn [vols4 nth_error] in V; injection V as <-.
    + exists (qcell 8). split; [cbn [In cells4]; tauto|]. apply F; [lia|reflexivity].
    + exists (qcell 9). split; [cbn [In cells4]; tauto|]. apply F; [lia|reflexivity].
    + exists (qcell 10). split; [cbn [In cells4]; tauto|]. apply F; [lia|reflexivity].
    + exists (qcell 11). split; [cbn [In cells4]; tauto|]. apply F; [lia|reflexivity].
  - intros c j j' v v' I J J' V V' A B. assert (Z : exists z, c = qcell z).
    { cbn [In cells4] in I. destruct I as [<-|[<-|[<-|[<-|[]]]]]; eauto. }
    destruct Z as [z ->].
    assert (G : forall j v, j < 4 -> nth_error vols4 j = Some v -> v = whole (8 + Z.of_nat j)).
    { intros k w K W. destruct k as [|[|[|[|k]]]]; [..|lia]; cbn [vols4 nth_error] in W; injection W as <-; reflexivity. }
    rewrite (G j v J V) in A. rewrite (G j' v' J' V') in B. apply F in A; [|lia]. apply F in B; [|lia]. lia.
  - intros c I. assert (Z : exists j, j < 4 /\ c = qcell (8 + Z.of_nat j)).
    { cbn [In cells4] in I. destruct I as [<-|[<-|[<-|[<-|[]]]]]; [exists 2|exists 0|exists 3|exists 1]; split; try lia; reflexivity. }
    destruct Z as (j & J & ->). exists j, (whole (8 + Z.of_nat j)). split; [exact J|]. split; [|apply F; [lia|reflexivity]].
    destruct j as [|[|[|[|j]]]]; [..|lia]; reflexivity.
Qed.
(** The same file, read first in a process or after one with a doubled cell: the
    energies (and volumes) of the second reading are halved. *)
Theorem C38_qha_stale_dim_refuted : exists f g c1 c2 e1 e2 x,
  qha_load f qha_new = (c1, QhaCompleted) /\ qha_load f (qha_readers [g] qha_new) = (c2, QhaCompleted) /\
  qha_energy c1 = Ok e1 /\ qha_energy c2 = Ok e2 /\ x <> 0%R /\ nth_error e1 0 = Some (Num x) /\ nth_error e2 0 = Some (Num (x / 2)).
Proof.
  destruct (qha_load4 false qha_new (or_introl eq_refl)) as (c1 & L1 & _ & _ & E1 & D1).
  destruct (qha_load4 true qha_new I) as (cg & LG & _ & _ & _ & DG).
  destruct (qha_load4 false cg (or_intror DG)) as (c2 & L2 & _ & _ & E2 & D2).
  exists (qha_text false found4), (qha_text true found4), c1, c2. do 2 eexists. exists (-100)%R.
  split; [exact L1|]. split; [unfold qha_readers; cbn [fold_left]; rewrite LG; exact L2|].
  cbn iota in D1, D2. split; [unfold qha_energy; rewrite D1, E1; change (q_dim qha_new) with identity3; rewrite kpoints_one; reflexivity|].
  split; [unfold qha_energy; rewrite D2, DG, E2, kpoints_two; reflexivity|]. split; [lra|].
  cbn [energies4 map nth_error]. cbv [fdiv fop powerRZ]. split; do 2 f_equal; field.
Qed.

Print Assumptions C59_ordered.
Print Assumptions C59_no_cell.
Print Assumptions C59_close_volumes_refuted.
Print Assumptions C59_points.
Print Assumptions C59_cut_refuted.
Print Assumptions C59_frequencies.
Print Assumptions C59_pairing.
Print Assumptions C59_reported.
Print Assumptions C38_qha_isolated.
Print Assumptions C38_qha_stale_dim.
Print Assumptions C38_qha_stale_weights.
Print Assumptions C59_missing_cells.
Print Assumptions C38_qha_stale_dim_refuted.
