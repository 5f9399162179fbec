(** Lemmas for C84: grids, extreme values, scripts. *)
From Coq Require Import Reals String Ascii List Bool Arith ZArith Lia Lra.
From Verif Require Import Py DecimalModel DecimalProofs FormatModel FormatProofs QhaRunModel SeismicModel TableModel SoecTableModel SeismicTableModel SeismicPlotModel.
Import ListNotations.
Open Scope string_scope.
Open Scope list_scope.
Open Scope nat_scope.

(** * Grids *)
Lemma rows_of_length n m l : List.length (rows_of n m l) = n.
Proof. revert l. induction n as [|n IH]; intros l; [reflexivity|]. cbn [rows_of List.length]. now rewrite IH. Qed.
Lemma nth_skipn {A} m (l : list A) k d : nth k (skipn m l) d = nth (m + k) l d.
Proof. revert l. induction m as [|m IH]; intros [|a l]; cbn [skipn Nat.add nth]; try reflexivity; [now destruct k|apply IH]. Qed.
Lemma nth_firstn {A} m (l : list A) k d : k < m -> nth k (firstn m l) d = nth k l d.
Proof. revert l k. induction m as [|m IH]; intros [|a l] [|k] H; cbn [firstn nth]; try reflexivity; try lia. apply IH. lia. Qed.
Lemma rows_of_at n m l i j : i < n -> j < m -> at_ (rows_of n m l) i j = nth (i * m + j) l 0%R.
Proof.
  unfold at_. revert l i. induction n as [|n IH]; intros l i Hi Hj; [lia|]. cbn [rows_of]. destruct i as [|i]; cbn [nth].
  - cbn [Nat.mul Nat.add]. now apply nth_firstn.
  - rewrite IH by lia. rewrite nth_skipn. f_equal. lia.
Qed.
Lemma rows_of_flat n m l : List.length l = n * m -> flat (rows_of n m l) = l.
Proof.
  unfold flat. revert l. induction n as [|n IH]; intros l H; cbn [rows_of List.concat].
  - now destruct l.
  - rewrite IH; [apply firstn_skipn|]. rewrite skipn_length. lia.
Qed.
Lemma map_rows_of f n m l : map_grid f (rows_of n m l) = rows_of n m (map f l).
Proof.
  unfold map_grid. revert l. induction n as [|n IH]; intros l; [reflexivity|]. cbn [rows_of map]. now rewrite IH, firstn_map, skipn_map.
Qed.
Definition map2 (f : R -> R -> R) (a b : list R) : list R := map (fun '(x, y) => f x y) (combine a b).
Lemma combine_skipn {A B} m (a : list A) (b : list B) : combine (skipn m a) (skipn m b) = skipn m (combine a b).
Proof. revert a b. induction m as [|m IH]; intros [|x a] [|y b]; cbn; try reflexivity; [now destruct (skipn m a)|apply IH]. Qed.
Lemma map2_rows_of f n m a b : map_grid2 f (rows_of n m a) (rows_of n m b) = rows_of n m (map2 f a b).
Proof.
  unfold map_grid2, map2. revert a b. induction n as [|n IH]; intros a b; [reflexivity|]. cbn [rows_of combine map].
  rewrite IH. rewrite combine_skipn, <- combine_firstn, firstn_map, skipn_map. reflexivity.
Qed.
Lemma map2_length f a b : List.length a = List.length b -> List.length (map2 f a b) = List.length a.
Proof. intros H. unfold map2. rewrite map_length, combine_length. lia. Qed.
Lemma map2_nth f a b k : List.length a = List.length b -> k < List.length a -> nth k (map2 f a b) 0%R = f (nth k a 0%R) (nth k b 0%R).
Proof.
  unfold map2. revert b k. induction a as [|x a IH]; intros [|y b] [|k] H K; cbn [List.length combine map nth] in *; try lia; [reflexivity|].
  apply IH; lia.
Qed.
Lemma nth_map {A B} (f : A -> B) l k d d' : k < List.length l -> nth k (map f l) d' = f (nth k l d).
Proof. revert k. induction l as [|a l IH]; intros [|k] H; cbn [List.length map nth] in *; try lia; [reflexivity|]. apply IH. lia. Qed.
Lemma on_grid_at n m f i j : i < n -> j < m -> at_ (on_grid n m f) i j = f i j.
Proof.
  intros Hi Hj. unfold at_, on_grid. rewrite (nth_map _ _ i 0) by (rewrite seq_length; lia). rewrite seq_nth by lia.
  rewrite (nth_map _ _ j 0) by (rewrite seq_length; lia). now rewrite seq_nth by lia.
Qed.
Lemma map_grid_at f n m g i j : i < n -> j < m -> at_ (map_grid f (on_grid n m g)) i j = f (g i j).
Proof.
  intros Hi Hj. unfold at_, map_grid, on_grid. rewrite map_map. rewrite (nth_map _ _ i 0) by (rewrite seq_length; lia). rewrite seq_nth by lia.
  rewrite map_map. rewrite (nth_map _ _ j 0) by (rewrite seq_length; lia). now rewrite seq_nth by lia.
Qed.

(** * Extreme values *)
Section Arg.
Variable better : R -> R -> bool.
Variable above : R -> R -> Prop.
Hypothesis better_iff : forall x y, better x y = true <-> above x y.
Hypothesis above_trans : forall x y z, above x y -> above y z -> above x z.
Hypothesis irreflexive : forall x, ~ above x x.
Hypothesis above_trans' : forall x y z, above x y -> ~ above z y -> above x z.
Lemma arg_best_spec l : forall pre best k, k < List.length pre -> nth k pre 0%R = best ->
  (forall j, j < List.length pre -> ~ above (nth j pre 0%R) best) -> (forall j, j < k -> above best (nth j pre 0%R)) ->
  let r := arg_best better best k (List.length pre) l in let all := pre ++ l in
  r < List.length all /\ (forall j, j < List.length all -> ~ above (nth j all 0%R) (nth r all 0%R)) /\
  (forall j, j < r -> above (nth r all 0%R) (nth j all 0%R)).
Proof.
  induction l as [|x l IH]; intros pre best k K N H1 H2; cbn [arg_best].
  - rewrite app_nil_r. cbv zeta. rewrite N. auto.
  - assert (E : S (List.length pre) = List.length (pre ++ [x])) by (rewrite app_length; cbn; lia).
    assert (A : pre ++ x :: l = (pre ++ [x]) ++ l) by now rewrite <- app_assoc.
    rewrite A, E. destruct (better x best) eqn:B.
    + apply better_iff in B. apply (IH (pre ++ [x]) x (List.length pre)).
      * rewrite app_length. cbn. lia.
      * rewrite app_nth2 by lia. now rewrite Nat.sub_diag.
      * intros j J. rewrite app_length in J. cbn in J. destruct (Nat.eq_dec j (List.length pre)) as [->|Q].
        -- rewrite app_nth2 by lia. rewrite Nat.sub_diag. cbn. apply irreflexive.
        -- rewrite app_nth1 by lia. intros W. apply (H1 j); [lia|]. now apply above_trans with x.
      * intros j J. rewrite app_nth1 by lia. apply above_trans' with best; [exact B|]. apply H1. lia.
    + assert (B' : ~ above x best) by (rewrite <- better_iff, B; discriminate).
      apply (IH (pre ++ [x]) best k).
      * rewrite app_length. cbn. lia.
      * now rewrite app_nth1 by lia.
      * intros j J. rewrite app_length in J. cbn in J. destruct (Nat.eq_dec j (List.length pre)) as [->|Q].
        -- rewrite app_nth2 by lia. now rewrite Nat.sub_diag.
        -- rewrite app_nth1 by lia. apply H1. lia.
      * intros j J. rewrite app_nth1 by lia. now apply H2.
Qed.
Lemma arg_spec l : l <> [] ->
  let r := arg better l in r < List.length l /\ (forall j, j < List.length l -> ~ above (nth j l 0%R) (nth r l 0%R)) /\
  (forall j, j < r -> above (nth r l 0%R) (nth j l 0%R)).
Proof.
  intros H. destruct l as [|x l]; [congruence|]. unfold arg. apply (arg_best_spec l [x] x 0).
  - cbn. lia.
  - reflexivity.
  - intros [|j] J; cbn in *; [apply irreflexive|lia].
  - intros j J. lia.
Qed.
End Arg.
Lemma argmax_spec l : l <> [] -> let r := arg gtb l in r < List.length l /\
  (forall j, j < List.length l -> (nth j l 0 <= nth r l 0)%R) /\ (forall j, j < r -> (nth j l 0 < nth r l 0)%R).
Proof.
  intros H. destruct (arg_spec gtb (fun x y => (y < x)%R)) with (l := l) as (A & B & D); auto.
  - intros x y. unfold gtb. destruct (Rlt_dec y x); split; auto; discriminate.
  - intros x y z A B. lra.
  - intros x A. lra.
  - intros x y z A B. lra.
  - split; [exact A|]. split; [|exact D]. intros j J. specialize (B j J). lra.
Qed.
Lemma argmin_spec l : l <> [] -> let r := arg ltb l in r < List.length l /\
  (forall j, j < List.length l -> (nth r l 0 <= nth j l 0)%R) /\ (forall j, j < r -> (nth r l 0 < nth j l 0)%R).
Proof.
  intros H. destruct (arg_spec ltb (fun x y => (x < y)%R)) with (l := l) as (A & B & D); auto.
  - intros x y. unfold ltb. destruct (Rlt_dec x y); split; auto; discriminate.
  - intros x y z A B. lra.
  - intros x A. lra.
  - intros x y z A B. lra.
  - split; [exact A|]. split; [|exact D]. intros j J. specialize (B j J). lra.
Qed.

(** * Scripts *)
Lemma andthen_done a b : snd a = None -> a >> b = (fst a ++ fst b, snd b).
Proof. destruct a as [l [e|]]; cbn; [discriminate|reflexivity]. Qed.
Lemma each_done {A} (f : A -> script) l : (forall a, In a l -> snd (f a) = None) ->
  each f l = (flat_map (fun a => fst (f a)) l, None).
Proof.
  induction l as [|a l IH]; intros H; [reflexivity|]. cbn [each flat_map]. rewrite andthen_done by (apply H; now left).
  rewrite IH by (intros; apply H; now right). reflexivity.
Qed.

(** * str.replace *)
Lemma remove_skip sub k a r : List.length (list_ascii_of_string a) = k -> remove_all sub k (a +++ r) = remove_all sub 0 r.
Proof.
  revert k. induction a as [|c a IH]; intros k H; cbn in H; subst k; [reflexivity|]. cbn [String.append remove_all]. now apply IH.
Qed.
Lemma prefix_here s r : String.prefix s (s +++ r) = true.
Proof. induction s as [|c s IH]; cbn; [now destruct r|]. destruct (ascii_dec c c); [exact IH|congruence]. Qed.
Lemma length_list s : List.length (list_ascii_of_string s) = String.length s.
Proof. induction s; cbn; [reflexivity|now rewrite IHs]. Qed.
Lemma remove_here c sub r : remove_all (String c sub) 0 (String c sub +++ r) = remove_all (String c sub) 0 r.
Proof.
  cbn [String.append remove_all]. change (String c (sub +++ r)) with (String c sub +++ r). rewrite prefix_here.
  cbn [String.length]. replace (S (String.length sub) - 1) with (String.length sub) by lia. apply remove_skip, length_list.
Qed.
Fixpoint has (x : ascii) (s : string) : bool := match s with "" => false | String a r => Ascii.eqb x a || has x r end.
Lemma prefix_over sub u x r : has x sub = false -> String.prefix sub (u +++ String x r) = true -> String.prefix sub u = true.
Proof.
  revert u. induction sub as [|c sub IH]; intros u H P; [now destruct u|]. cbn [has] in H. apply orb_false_iff in H. destruct H as [H1 H2].
  destruct u as [|a u]; cbn in P.
  - destruct (ascii_dec c x) as [->|]; [|discriminate]. now rewrite Ascii.eqb_refl in H1.
  - cbn. destruct (ascii_dec c a); [|discriminate]. now apply IH.
Qed.
Lemma remove_none c sub u x r : has x sub = false -> contains (String c sub) u = false ->
  remove_all (String c sub) 0 (u +++ String x r) = u +++ remove_all (String c sub) 0 (String x r).
Proof.
  intros H. induction u as [|a u IH]; intros N; [reflexivity|]. change (String a u +++ String x r) with (String a (u +++ String x r)).
  assert (P : String.prefix (String c sub) (String a (u +++ String x r)) = false).
  { destruct (String.prefix (String c sub) (String a (u +++ String x r))) eqn:E; [|reflexivity]. exfalso.
    cbn in E. destruct (ascii_dec c a) as [->|D]; [|discriminate]. apply prefix_over in E; [|exact H].
    cbn [contains] in N. assert (Q : String.prefix (String a sub) (String a u) = true) by (cbn; destruct (ascii_dec a a); [exact E|congruence]).
    rewrite Q in N. discriminate N. }
  transitivity (String a (remove_all (String c sub) 0 (u +++ String x r))).
  - change (remove_all (String c sub) 0 (String a (u +++ String x r))) with
      (if String.prefix (String c sub) (String a (u +++ String x r)) then remove_all (String c sub) (String.length (String c sub) - 1) (u +++ String x r)
       else String a (remove_all (String c sub) 0 (u +++ String x r))). now rewrite P.
  - change (String a u +++ remove_all (String c sub) 0 (String x r)) with (String a (u +++ remove_all (String c sub) 0 (String x r))).
    f_equal. apply IH. cbn [contains] in N. destruct (String.prefix (String c sub) (String a u)); [discriminate N|exact N].
Qed.
Lemma result_basename base : contains "_SEISMIC" base = false -> contains ".hdf5" base = false ->
  remove_all "_SEISMIC" 0 (remove_all ".hdf5" 0 (base +++ "_SEISMIC.hdf5")) = base.
Proof.
  intros A B. rewrite remove_none; [|reflexivity|exact B]. change (remove_all ".hdf5" 0 "_SEISMIC.hdf5") with "_SEISMIC".
  rewrite remove_none; [|reflexivity|exact A]. change (remove_all "_SEISMIC" 0 "_SEISMIC") with "". apply append_nil.
Qed.
