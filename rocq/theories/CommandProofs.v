(** Lemmas for C85. *)
From Coq Require Import String Ascii List Bool Arith Lia NArith Sorted Permutation.
From Verif Require Import CommandModel CommandSpec.
Import ListNotations.
Open Scope list_scope.
Open Scope nat_scope.

(** * Blocks *)
Definition valid (a b : word) (i j k : nat) : Prop :=
  i + k <= List.length a /\ j + k <= List.length b /\ forall m, m < k -> same_at a b (i + m) (j + m) = true.
Lemma same_at_lt a b i j : same_at a b i j = true -> i < List.length a /\ j < List.length b.
Proof.
  unfold same_at. destruct (nth_error a i) eqn:A; [|discriminate]. destruct (nth_error b j) eqn:B; [|discriminate]. intros _.
  split; apply nth_error_Some; congruence.
Qed.
Section Scan.
Variable skipped : ascii -> bool.
Lemma next_row_length c b : forall d row, List.length row = List.length b -> List.length (next_row skipped c b d row) = List.length b.
Proof. induction b as [|y b IH]; intros d [|r row] L; cbn in *; try lia. rewrite IH by lia. reflexivity. Qed.
Lemma next_row_nth c b : forall d row j, List.length row = List.length b -> j < List.length b ->
  nth j (next_row skipped c b d row) 0 =
    (if match nth_error b j with Some y => Ascii.eqb c y && negb (skipped y) | None => false end then S (match j with 0 => d | S j' => nth j' row 0 end) else 0).
Proof.
  induction b as [|y b IH]; intros d [|r row] j L J; cbn [List.length] in *; try lia. destruct j as [|j].
  - reflexivity.
  - cbn [next_row nth nth_error]. rewrite IH by lia. destruct (nth_error b j); [|reflexivity]. destruct (Ascii.eqb c a && negb (skipped a)); [|reflexivity].
    destruct j; reflexivity.
Qed.
(** [row] after the first i characters of a: blocks ending at i and j. *)
Definition row_ok (a b : word) (i : nat) (row : list nat) : Prop :=
  List.length row = List.length b /\
  forall j, j < List.length b -> nth j row 0 <= i /\ nth j row 0 <= S j /\
    forall m, m < nth j row 0 -> same_at a b (i - nth j row 0 + m) (S j - nth j row 0 + m) = true.
Definition row_max (a b : word) (i : nat) (row : list nat) : Prop :=
  forall j k, j < List.length b -> k <= i -> k <= S j -> (forall m, m < k -> same_at a b (i - k + m) (S j - k + m) = true) -> k <= nth j row 0.
Lemma next_ok a b i row c : nth_error a i = Some c -> row_ok a b i row -> row_ok a b (S i) (next_row skipped c b 0 row).
Proof.
  intros A [L H]. split; [now rewrite next_row_length|]. intros j J. rewrite next_row_nth by assumption.
  destruct (nth_error b j) as [y|] eqn:B; [|cbn; repeat split; intros; lia].
  destruct (Ascii.eqb c y && negb (skipped y)) eqn:E; [|cbn; repeat split; intros; lia].
  apply andb_true_iff in E. destruct E as [E _].
  assert (SA : same_at a b i j = true) by (unfold same_at; now rewrite A, B).
  destruct j as [|j].
  - repeat split; try lia. intros m M. replace m with 0 by lia. replace (S i - 1 + 0) with i by lia. exact SA.
  - destruct (H j ltac:(lia)) as (H1 & H2 & H3). repeat split; try lia. intros m M.
    destruct (Nat.eq_dec m (nth j row 0)) as [->|N].
    + replace (S i - S (nth j row 0) + nth j row 0) with i by lia. replace (S (S j) - S (nth j row 0) + nth j row 0) with (S j) by lia. exact SA.
    + replace (S i - S (nth j row 0) + m) with (i - nth j row 0 + m) by lia. replace (S (S j) - S (nth j row 0) + m) with (S j - nth j row 0 + m) by lia.
      apply H3. lia.
Qed.
Lemma next_max a b i row c : (forall x, skipped x = false) -> nth_error a i = Some c -> List.length row = List.length b -> row_max a b i row -> row_max a b (S i) (next_row skipped c b 0 row).
Proof.
  intros NS A L H j k J K1 K2 V. rewrite next_row_nth by assumption. destruct k as [|k]; [lia|].
  pose proof (V k ltac:(lia)) as SA. replace (S i - S k + k) with i in SA by lia. replace (S j - S k + k) with j in SA by lia.
  unfold same_at in SA. rewrite A in SA. destruct (nth_error b j) as [y|]; [|discriminate]. rewrite SA, NS. cbn [negb andb].
  destruct j as [|j]; [lia|]. apply le_n_S. apply H; try lia. intros m M.
  replace (i - k + m) with (S i - S k + m) by lia. replace (S j - k + m) with (S (S j) - S k + m) by lia. apply V. lia.
Qed.
Lemma better_spec i row : forall j best, 
  (better i j row best = best \/ exists j', j' < List.length row /\ better i j row best = (S i - nth j' row 0, S (j + j') - nth j' row 0, nth j' row 0)) /\
  snd best <= snd (better i j row best) /\ forall j', j' < List.length row -> nth j' row 0 <= snd (better i j row best).
Proof.
  induction row as [|k row IH]; intros j best; cbn [better List.length].
  - split; [now left|]. split; [lia|]. intros; lia.
  - destruct (IH (S j) (if snd best <? k then (S i - k, S j - k, k) else best)) as (A & B & D).
    set (r := better i (S j) row _) in *. destruct (Nat.ltb_spec (snd best) k) as [Q|Q]; cbn [snd] in B.
    + split; [|split; [lia|intros [|j'] J; [exact B|apply D; lia]]].
      right. destruct A as [A|(j' & J & A)]; [exists 0; cbn [nth]; split; [lia|]; rewrite Nat.add_0_r; exact A|exists (S j'); cbn [nth]; split; [lia|]; rewrite Nat.add_succ_r; exact A].
    + split; [|split; [lia|intros [|j'] J; [cbn [nth]; lia|apply D; lia]]].
      destruct A as [A|(j' & J & A)]; [now left|right; exists (S j'); cbn [nth]; split; [lia|]]. rewrite Nat.add_succ_r. exact A.
Qed.
Definition best_ok (a b : word) (best : block) : Prop := let '(i, j, k) := best in valid a b i j k.
Lemma scan_ok b a : forall pre row best, row_ok (pre ++ a) b (List.length pre) row -> best_ok (pre ++ a) b best ->
  best_ok (pre ++ a) b (scan skipped (List.length pre) a b row best).
Proof.
  induction a as [|c a IH]; intros pre row best H B; cbn [scan]; [exact B|].
  assert (N : nth_error (pre ++ c :: a) (List.length pre) = Some c) by (rewrite nth_error_app2, Nat.sub_diag by lia; reflexivity).
  pose proof (next_ok _ _ _ _ _ N H) as H'. set (row' := next_row skipped c b 0 row) in *.
  specialize (IH (pre ++ [c]) row' (better (List.length pre) 0 row' best)). rewrite app_length in IH. cbn [List.length] in IH.
  rewrite Nat.add_1_r, <- app_assoc in IH. cbn [app] in IH. apply IH; [exact H'|].
  destruct (better_spec (List.length pre) row' 0 best) as ([-> | (j & J & ->)] & _ & _); [exact B|].
  destruct H' as [L' V]. rewrite L' in J. destruct (V j J) as (V1 & V2 & V3). cbn [best_ok]. rewrite Nat.add_0_l. split; [|split].
  - rewrite app_length. cbn [List.length]. lia.
  - lia.
  - intros m M. apply V3, M.
Qed.
Definition covers (a b : word) (n : nat) (best : block) : Prop := forall i j k, valid a b i j k -> i + k <= n -> k <= snd best.
Lemma scan_max b a : (forall x, skipped x = false) -> forall pre row best, List.length row = List.length b -> row_max (pre ++ a) b (List.length pre) row -> covers (pre ++ a) b (List.length pre) best ->
  covers (pre ++ a) b (List.length (pre ++ a)) (scan skipped (List.length pre) a b row best).
Proof.
  intros NS. induction a as [|c a IH]; intros pre row best L H B; cbn [scan]; [rewrite app_nil_r in *; exact B|].
  assert (N : nth_error (pre ++ c :: a) (List.length pre) = Some c) by (rewrite nth_error_app2, Nat.sub_diag by lia; reflexivity).
  pose proof (next_max _ _ _ _ _ NS N L H) as H'. pose proof (next_row_length c b 0 row L) as L'. set (row' := next_row skipped c b 0 row) in *.
  specialize (IH (pre ++ [c]) row' (better (List.length pre) 0 row' best) L'). rewrite app_length in IH. cbn [List.length] in IH.
  rewrite Nat.add_1_r, <- app_assoc in IH. cbn [app] in IH. apply IH; [exact H'|].
  destruct (better_spec (List.length pre) row' 0 best) as (_ & M1 & M2). intros i j k V I. 
  destruct (Nat.eq_dec (i + k) (S (List.length pre))) as [E|E].
  - destruct k as [|k]; [lia|]. destruct V as (V1 & V2 & V3). transitivity (nth (j + k) row' 0); [|apply M2; lia].
    apply H'; try lia. intros m M. replace (S (List.length pre) - S k + m) with (i + m) by lia. replace (S (j + k) - S k + m) with (j + m) by lia. now apply V3.
  - specialize (B i j k V ltac:(lia)). lia.
Qed.
End Scan.
Lemma grow_left_ok a b : forall i j k, valid a b i j k -> best_ok a b (grow_left a b i j k) /\ k <= snd (grow_left a b i j k).
Proof.
  induction i as [|i IH]; intros j k V; cbn [grow_left]; [split; [exact V|cbn; lia]|]. destruct j as [|j]; [split; [exact V|cbn; lia]|].
  destruct (same_at a b i j) eqn:E; [|split; [exact V|cbn; lia]]. destruct V as (V1 & V2 & V3). destruct (IH j (S k)) as [A B].
  - split; [lia|]. split; [lia|]. intros [|m] M; [now rewrite !Nat.add_0_r|]. rewrite !Nat.add_succ_r, <- !Nat.add_succ_l. apply V3. lia.
  - split; [exact A|lia].
Qed.
Lemma grow_right_ok a b fuel : forall i j k, valid a b i j k -> best_ok a b (grow_right fuel a b i j k) /\ k <= snd (grow_right fuel a b i j k).
Proof.
  induction fuel as [|fuel IH]; intros i j k V; cbn [grow_right]; [split; [exact V|cbn; lia]|].
  destruct (same_at a b (i + k) (j + k)) eqn:E; [|split; [exact V|cbn; lia]]. destruct (same_at_lt _ _ _ _ E) as [E1 E2].
  destruct V as (V1 & V2 & V3). destruct (IH i j (S k)) as [A B].
  - split; [lia|]. split; [lia|]. intros m M. destruct (Nat.eq_dec m k) as [->|N]; [exact E|]. apply V3. lia.
  - split; [exact A|lia].
Qed.
Lemma row_start a b : row_ok a b 0 (repeat 0 (List.length b)).
Proof.
  split; [apply repeat_length|]. intros j J. assert (E : nth j (repeat 0 (List.length b)) 0 = 0) by (apply nth_repeat). rewrite E. repeat split; lia || (intros; lia).
Qed.
Lemma scan_start s a b : best_ok a b (scan s 0 a b (repeat 0 (List.length b)) (0, 0, 0)).
Proof. apply (scan_ok s b a [] _ (0, 0, 0)); [apply row_start|]. cbn. repeat split; lia || (intros; lia). Qed.
Lemma longest_valid s a b : best_ok a b (longest s a b).
Proof.
  unfold longest. pose proof (scan_start s a b) as V. destruct (scan s 0 a b _ _) as [[i j] k]. cbn [best_ok] in V.
  destruct (grow_left_ok a b i j k V) as [V' _]. destruct (grow_left a b i j k) as [[i' j'] k']. cbn [best_ok] in V'. apply grow_right_ok, V'.
Qed.
(** The block is the longest one. *)
Lemma longest_max s a b i j k : (forall x, s x = false) -> valid a b i j k -> k <= snd (longest s a b).
Proof.
  intros NS V. assert (C : covers a b (List.length a) (scan s 0 a b (repeat 0 (List.length b)) (0, 0, 0))).
  { apply (scan_max s b a NS [] _ (0, 0, 0)); [apply repeat_length| |].
    - intros j' k' J K1 _ _. cbn in K1. lia.
    - intros i' j' k' _ I. cbn in *. lia. }
  specialize (C i j k V ltac:(apply V)). pose proof (scan_start s a b) as V0.
  unfold longest. destruct (scan s 0 a b _ _) as [[i1 j1] k1]. cbn [best_ok snd] in *.
  destruct (grow_left_ok a b i1 j1 k1 V0) as [V' L1]. destruct (grow_left a b i1 j1 k1) as [[i2 j2] k2]. cbn [best_ok snd] in *.
  destruct (grow_right_ok a b (List.length a) i2 j2 k2 V') as [_ L2]. lia.
Qed.

(** * Common subsequences *)
Lemma subseq_refl {A} (l : list A) : subseq l l.
Proof. induction l; now constructor. Qed.
Lemma subseq_app {A} (u v l m : list A) : subseq u l -> subseq v m -> subseq (u ++ v) (l ++ m).
Proof.
  intros H K. induction H; cbn [app]; try now constructor. induction l as [|x l IH]; cbn [app]; [exact K|now constructor].
Qed.
Lemma subseq_length {A} (u l : list A) : subseq u l -> List.length u <= List.length l.
Proof. induction 1; cbn; lia. Qed.
Lemma block_same a b i j k : valid a b i j k -> firstn k (skipn i a) = firstn k (skipn j b).
Proof.
  intros (V1 & V2 & V3). revert i j V1 V2 V3. induction k as [|k IH]; intros i j V1 V2 V3; [reflexivity|].
  pose proof (V3 0 ltac:(lia)) as S0. rewrite !Nat.add_0_r in S0. unfold same_at in S0.
  destruct (nth_error a i) as [x|] eqn:A; [|discriminate]. destruct (nth_error b j) as [y|] eqn:B; [|discriminate].
  apply Ascii.eqb_eq in S0. subst y. apply nth_error_split in A. destruct A as (a1 & a2 & -> & La). apply nth_error_split in B. destruct B as (b1 & b2 & -> & Lb).
  rewrite <- La, <- Lb in *. rewrite !skipn_app, !skipn_all, !Nat.sub_diag. cbn [app skipn firstn]. f_equal.
  specialize (IH (S (List.length a1)) (S (List.length b1)) ltac:(lia) ltac:(lia)).
  rewrite !skipn_app, (skipn_all2 a1), (skipn_all2 b1) in IH by lia. replace (S (List.length a1) - List.length a1) with 1 in IH by lia. replace (S (List.length b1) - List.length b1) with 1 in IH by lia.
  apply IH. intros m M. specialize (V3 (S m) ltac:(lia)). rewrite !Nat.add_succ_r in V3. exact V3.
Qed.
Lemma pieces {A} (l : list A) i k : i + k <= List.length l -> l = firstn i l ++ firstn k (skipn i l) ++ skipn (i + k) l.
Proof.
  intros _. rewrite <- (firstn_skipn i l) at 1. f_equal. rewrite <- (firstn_skipn k (skipn i l)) at 1. f_equal.
  revert l. induction i as [|i IH]; intros l; [reflexivity|]. destruct l; [cbn; now rewrite skipn_nil|apply IH].
Qed.
Lemma matched_common s fuel : forall a b, exists w, List.length w = matched s fuel a b /\ subseq w a /\ subseq w b.
Proof.
  induction fuel as [|fuel IH]; intros a b; cbn [matched]; [exists []; repeat constructor|].
  pose proof (longest_valid s a b) as V. destruct (longest s a b) as [[i j] k]. cbn [best_ok] in V.
  destruct (Nat.eqb_spec k 0) as [->|K]; [exists []; repeat constructor|].
  destruct (IH (firstn i a) (firstn j b)) as (w1 & L1 & A1 & B1). destruct (IH (skipn (i + k) a) (skipn (j + k) b)) as (w2 & L2 & A2 & B2).
  destruct (V) as (V1 & V2 & _). exists (w1 ++ firstn k (skipn i a) ++ w2). split; [|split].
  - rewrite !app_length, firstn_length, skipn_length, L1, L2. lia.
  - rewrite (pieces a i k V1) at 2. apply subseq_app; [exact A1|]. apply subseq_app; [apply subseq_refl|exact A2].
  - rewrite (block_same _ _ _ _ _ V). rewrite (pieces b j k V2) at 2.
    apply subseq_app; [exact B1|]. apply subseq_app; [apply subseq_refl|exact B2].
Qed.
Lemma matched_block s fuel a b i j k : (forall x, s x = false) -> valid a b i j k -> k <= matched s (S fuel) a b.
Proof.
  intros NS V. pose proof (longest_max s a b i j k NS V) as M. cbn [matched]. destruct (longest s a b) as [[i' j'] k']. cbn [snd] in M.
  destruct (Nat.eqb_spec k' 0); lia.
Qed.
(** ** The quick ratios only save time *)
Lemma count_take (c : ascii) w : In c w -> exists u v, w = u ++ c :: v.
Proof. apply in_split. Qed.
Lemma count_app c u v : count c (u ++ v) = count c u + count c v.
Proof. induction u; cbn; lia. Qed.
Lemma subseq_count (u l : word) c : subseq u l -> count c u <= count c l.
Proof. induction 1; cbn [count]; [lia|lia|lia]. Qed.
Lemma subseq_drop {A} (u v l : list A) x : subseq (u ++ x :: v) l -> subseq (u ++ v) l.
Proof.
  revert u. induction l as [|y l IH]; intros u H.
  - inversion H. destruct u; discriminate.
  - inversion H; subst.
    + destruct u; discriminate.
    + constructor. now apply IH.
    + destruct u as [|z u]; cbn [app] in *.
      * injection H0 as -> ->. now constructor.
      * injection H0 as -> ->. apply sub_take. now apply IH.
Qed.
Lemma available_bound a : forall avail w, subseq w a -> (forall c, count c w <= avail c) -> List.length w <= available avail a.
Proof.
  induction a as [|x a IH]; intros avail w S C.
  - inversion S; cbn; lia.
  - cbn [available]. set (avail' := fun c => if Ascii.eqb c x then avail x - 1 else avail c).
    inversion S; subst; [cbn; lia| |].
    + destruct (in_dec Ascii.ascii_dec x w) as [I|I].
      * destruct (count_take x w I) as (u & v & ->). pose proof (C x) as CX. rewrite count_app in CX. cbn [count] in CX. rewrite Ascii.eqb_refl in CX.
        assert (L : List.length (u ++ v) <= available avail' a).
        { apply IH; [eapply subseq_drop; eassumption|]. intros c. unfold avail'. specialize (C c). rewrite count_app in *. cbn [count] in C.
          destruct (Ascii.eqb_spec c x) as [->|N]; [rewrite Ascii.eqb_refl in C; lia|].
          destruct (Ascii.eqb_spec x c); [congruence|]. lia. }
        rewrite app_length in *. cbn [List.length]. destruct (Nat.ltb_spec 0 (avail x)); lia.
      * assert (L : List.length w <= available avail' a); [|lia]. apply IH; [assumption|]. intros c. unfold avail'.
        destruct (Ascii.eqb_spec c x) as [->|N]; [|apply C].
        assert (Z : count x w = 0); [|lia]. clear - I. induction w as [|y w IHw]; [reflexivity|]. cbn [count]. destruct (Ascii.eqb_spec y x) as [->|N]; [destruct I; now left|].
        apply IHw. intros Q. apply I. now right.
    + assert (CX : 1 <= avail x) by (specialize (C x); cbn [count] in C; rewrite Ascii.eqb_refl in C; lia).
      assert (L : List.length u <= available avail' a).
      { apply IH; [assumption|]. intros c. unfold avail'. specialize (C c). cbn [count] in C. destruct (Ascii.eqb_spec c x) as [->|N]; [rewrite Ascii.eqb_refl in C; lia|].
        destruct (Ascii.eqb_spec x c); [congruence|lia]. }
      cbn [List.length]. destruct (Nat.ltb_spec 0 (avail x)); lia.
Qed.
Lemma half_mono p p' q : p <= p' -> at_least_half (p, q) = true -> at_least_half (p', q) = true.
Proof. unfold at_least_half. cbn [fst snd]. destruct (q =? 0); [auto|]. rewrite !Nat.leb_le. lia. Qed.
Lemma ratio_decides a b : at_least_half (real_quick_ratio a b) && at_least_half (quick_ratio a b) && at_least_half (ratio a b) = at_least_half (ratio a b).
Proof.
  destruct (at_least_half (ratio a b)) eqn:E; [|now rewrite andb_false_r].
  destruct (matched_common (popular b) (S (List.length a)) a b) as (w & L & A & B). unfold ratio in E. rewrite <- L in E.
  rewrite andb_true_r. apply andb_true_iff. split; (eapply half_mono; [|exact E]); apply Nat.mul_le_mono_l.
  - apply Nat.min_glb; now apply subseq_length.
  - apply available_bound; [exact A|]. intros c. now apply subseq_count.
Qed.

(** * Orders *)
Lemma string_leb_trans : forall x y z, String.leb x y = true -> String.leb y z = true -> String.leb x z = true.
Proof.
  unfold String.leb. induction x as [|a x IH]; intros [|b y] [|c z]; cbn [String.compare]; try reflexivity; try discriminate; intros H K.
  unfold Ascii.compare in *. destruct (N.compare_spec (N_of_ascii a) (N_of_ascii b)) as [E|E|E]; try discriminate;
    destruct (N.compare_spec (N_of_ascii b) (N_of_ascii c)) as [F|F|F]; try discriminate.
  - rewrite E, F, N.compare_refl. now apply (IH y).
  - rewrite E. apply N.compare_lt_iff in F. now rewrite F.
  - rewrite <- F. apply N.compare_lt_iff in E. now rewrite E.
  - pose proof (N.lt_trans _ _ _ E F) as G. apply N.compare_lt_iff in G. now rewrite G.
Qed.
Lemma insert_name_perm x l : Permutation (x :: l) (insert_name x l).
Proof. induction l as [|y l IH]; cbn [insert_name]; [constructor; constructor|]. destruct (String.leb x y); [reflexivity|]. rewrite perm_swap. now constructor. Qed.
Lemma sorted_perm l : Permutation l (sorted l).
Proof. induction l as [|x l IH]; cbn; [constructor|]. rewrite <- insert_name_perm. now constructor. Qed.
Lemma sorted_in l x : In x (sorted l) <-> In x l.
Proof. split; apply Permutation_in; [symmetry|]; apply sorted_perm. Qed.
Definition name_le (x y : string) : Prop := String.leb x y = true.
Lemma insert_name_sorted x l : StronglySorted name_le l -> StronglySorted name_le (insert_name x l).
Proof.
  induction l as [|y l IH]; cbn [insert_name]; intros H; [repeat constructor|]. inversion H as [|? ? H1 H2]; subst. destruct (String.leb x y) eqn:E.
  - constructor; [exact H|]. constructor; [exact E|]. eapply Forall_impl; [|exact H2]. intros z. now apply string_leb_trans.
  - constructor; [now apply IH|]. eapply Permutation_Forall; [apply insert_name_perm|]. constructor; [|exact H2].
    destruct (String.leb_total x y); [congruence|assumption].
Qed.
Lemma sorted_sorted l : StronglySorted name_le (sorted l).
Proof. induction l as [|x l IH]; cbn; [constructor|now apply insert_name_sorted]. Qed.
Lemma sorted_id l : StronglySorted name_le l -> sorted l = l.
Proof.
  induction 1 as [|x l H IH F]; [reflexivity|]. cbn. fold (sorted l). rewrite IH. destruct F as [|y l Q F]; [reflexivity|]. cbn [insert_name].
  unfold name_le in Q. now rewrite Q.
Qed.

(** Scores *)
Definition norm (f : fraction) : fraction := if snd f =? 0 then (1, 1) else f.
Lemma norm_pos f : 0 < snd (norm f).
Proof. unfold norm. destruct (Nat.eqb_spec (snd f) 0); cbn; lia. Qed.
Lemma less_norm f g : less f g = true <-> fst (norm f) * snd (norm g) < fst (norm g) * snd (norm f).
Proof.
  unfold less, norm. destruct f as [p q], g as [r s]; cbn [fst snd]. destruct (q =? 0), (s =? 0); cbn [fst snd]; apply Nat.ltb_lt.
Qed.
Definition geq (x y : fraction * string) : Prop := before y x = false.
Lemma geq_iff x y : geq x y <-> fst (norm (fst y)) * snd (norm (fst x)) <= fst (norm (fst x)) * snd (norm (fst y)) /\
  (fst (norm (fst y)) * snd (norm (fst x)) = fst (norm (fst x)) * snd (norm (fst y)) -> String.leb (snd y) (snd x) = true).
Proof.
  unfold geq, before. rewrite orb_false_iff, andb_false_iff. 
  destruct (less (fst x) (fst y)) eqn:A, (less (fst y) (fst x)) eqn:B.
  all: rewrite <- ?not_true_iff_false in *; rewrite ?less_norm in *.
  - exfalso. lia.
  - split; [intros [Q _]; congruence|]. intros [Q _]. exfalso. lia.
  - split; [intros _|intros _; split; [congruence|now left]]. split; [lia|]. intros; lia.
  - split.
    + intros [_ [Q|Q]]; [cbn in Q; congruence|]. split; [lia|]. intros _. destruct (String.leb (snd y) (snd x)); [reflexivity|cbn in Q; congruence].
    + intros [_ Q]. split; [congruence|]. right. rewrite Q by lia. cbn. congruence.
Qed.
Lemma geq_trans x y z : geq x y -> geq y z -> geq x z.
Proof.
  rewrite !geq_iff. pose proof (norm_pos (fst x)) as X. pose proof (norm_pos (fst y)) as Y. pose proof (norm_pos (fst z)) as Z.
  set (p := fst (norm (fst x))) in *. set (q := snd (norm (fst x))) in *. set (r := fst (norm (fst y))) in *. set (s := snd (norm (fst y))) in *.
  set (t := fst (norm (fst z))) in *. set (u := snd (norm (fst z))) in *. intros [A1 A2] [B1 B2].
  assert (C : t * q * s <= p * u * s) by nia. split; [nia|]. intros E.
  assert (r * q = p * s) by nia. assert (t * s = r * u) by nia. eapply string_leb_trans; [apply B2|apply A2]; assumption.
Qed.
Lemma before_geq x y : before x y = true -> geq x y.
Proof.
  intros H. destruct (before y x) eqn:K; [|exact K]. exfalso. unfold before in *. rewrite orb_true_iff, !andb_true_iff, !negb_true_iff in *.
  rewrite <- !not_true_iff_false, !less_norm in *.
  destruct H as [H|[H1 H2]], K as [K|[K1 K2]]; try lia. destruct (String.leb_total (snd x) (snd y)); congruence.
Qed.
Lemma insert_perm x l : Permutation (x :: l) (insert_ x l).
Proof. induction l as [|y l IH]; cbn [insert_]; [constructor; constructor|]. destruct (before y x); [|reflexivity]. rewrite perm_swap. now constructor. Qed.
Lemma descending_perm l : Permutation l (descending l).
Proof. induction l as [|x l IH]; cbn; [constructor|]. rewrite <- insert_perm. now constructor. Qed.
Lemma insert_sorted x l : StronglySorted geq l -> StronglySorted geq (insert_ x l).
Proof.
  induction l as [|y l IH]; cbn [insert_]; intros H; [repeat constructor|]. inversion H as [|? ? H1 H2]; subst. destruct (before y x) eqn:E.
  - constructor; [now apply IH|]. eapply Permutation_Forall; [apply insert_perm|]. constructor; [|exact H2]. now apply before_geq.
  - constructor; [exact H|]. constructor; [exact E|]. eapply Forall_impl; [|exact H2]. intros z. now apply geq_trans.
Qed.
Lemma descending_sorted l : StronglySorted geq (descending l).
Proof. induction l as [|x l IH]; cbn; [constructor|now apply insert_sorted]. Qed.

(** * The candidates *)
Definition scored (typed : string) (names : list string) : list (fraction * string) :=
  map (fun x => (ratio (letters x) (letters typed), x)) (filter (fun x => at_least_half (ratio (letters x) (letters typed))) names).
Lemma close_scored typed names : close_matches typed names = map snd (firstn 3 (descending (scored typed names))).
Proof.
  unfold close_matches, scored. do 3 f_equal. induction names as [|x l IH]; [reflexivity|]. cbn [flat_map filter]. rewrite ratio_decides, IH.
  destruct (at_least_half (ratio (letters x) (letters typed))); reflexivity.
Qed.
Lemma in_scored typed names f x : In (f, x) (scored typed names) <-> In x names /\ f = ratio (letters x) (letters typed) /\ at_least_half f = true.
Proof.
  unfold scored. rewrite in_map_iff. split.
  - intros (y & Q & H). injection Q as <- <-. apply filter_In in H. tauto.
  - intros (A & -> & B). exists x. split; [reflexivity|]. apply filter_In. tauto.
Qed.
Lemma firstn_in {A} n (l : list A) x : In x (firstn n l) -> In x l.
Proof. intros H. rewrite <- (firstn_skipn n l). apply in_or_app. now left. Qed.
Lemma close_in typed names x : In x (close_matches typed names) -> In x names /\ at_least_half (ratio (letters x) (letters typed)) = true.
Proof.
  rewrite close_scored, in_map_iff. intros ([f y] & <- & H). apply firstn_in in H. eapply Permutation_in in H; [|symmetry; apply descending_perm].
  apply in_scored in H. cbn [snd]. destruct H as (A & -> & B). tauto.
Qed.
Lemma close_in_sorted typed names x : In x (close_matches typed (sorted names)) -> In x names /\ at_least_half (ratio (letters x) (letters typed)) = true.
Proof. intros H. apply close_in in H. now rewrite sorted_in in H. Qed.
Lemma close_complete typed names x : In x names -> at_least_half (ratio (letters x) (letters typed)) = true ->
  In x (close_matches typed names) \/
  List.length (close_matches typed names) = 3 /\
  forall y, In y (close_matches typed names) -> less (ratio (letters y) (letters typed)) (ratio (letters x) (letters typed)) = false.
Proof.
  intros I H. rewrite close_scored. set (r := (ratio (letters x) (letters typed), x)).
  assert (IR : In r (descending (scored typed names))) by (eapply Permutation_in; [apply descending_perm|]; apply in_scored; tauto).
  pose proof (descending_sorted (scored typed names)) as SO.
  assert (IN : forall z, In z (descending (scored typed names)) -> fst z = ratio (letters (snd z)) (letters typed)).
  { intros [f z] Q. eapply Permutation_in in Q; [|symmetry; apply descending_perm]. apply in_scored in Q. tauto. }
  set (d := descending (scored typed names)) in *. clearbody d.
  assert (SP : In r (firstn 3 d) \/ In r (skipn 3 d)) by (apply in_app_or; rewrite firstn_skipn; exact IR).
  destruct SP as [K|K]; [left; apply in_map_iff; exists r; tauto|]. right. split.
  - rewrite map_length, firstn_length. apply Nat.min_l. destruct (Nat.le_gt_cases 3 (List.length d)) as [|Q]; [assumption|].
    rewrite skipn_all2 in K by lia. destruct K.
  - intros y Y. apply in_map_iff in Y. destruct Y as (z & <- & Z). rewrite <- (IN z) by now apply firstn_in in Z.
    assert (G : geq z r).
    { rewrite <- (firstn_skipn 3 d) in SO. clear - SO Z K. induction (firstn 3 d) as [|w l IH]; [destruct Z|]. cbn [app] in SO.
      inversion SO as [|? ? S1 S2]; subst. destruct Z as [->|Z]; [|now apply IH]. rewrite Forall_forall in S2. apply S2. apply in_or_app. now right. }
    unfold geq, before in G. apply orb_false_iff in G. exact (proj1 G).
Qed.
Lemma firstn_le {A} n (l : list A) : List.length (firstn n l) <= n.
Proof. rewrite firstn_length. lia. Qed.
Lemma close_length typed names : List.length (close_matches typed names) <= 3.
Proof. unfold close_matches. rewrite map_length. apply firstn_le. Qed.
Lemma NoDup_firstn {A} n (l : list A) : NoDup l -> NoDup (firstn n l).
Proof. intros H. rewrite <- (firstn_skipn n l) in H. revert H. generalize (skipn n l). induction (firstn n l) as [|x m IH]; intros r H; [constructor|].
  inversion H; subst. constructor; [intros Q; apply H2, in_or_app; now left|now apply (IH r)]. Qed.
Lemma close_nodup typed names : NoDup names -> NoDup (close_matches typed names).
Proof.
  intros H. rewrite close_scored. rewrite <- firstn_map. apply NoDup_firstn. apply (Permutation_NoDup (l := map snd (scored typed names))).
  - apply Permutation_map, descending_perm.
  - unfold scored. rewrite map_map. cbn [snd]. rewrite map_id. now apply NoDup_filter.
Qed.
