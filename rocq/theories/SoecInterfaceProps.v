(** C56, C58 and the VASP and CRYSTAL parts of C38. *)
From Coq Require Import Reals String Ascii List Bool Arith Lia Lra.
From Verif Require Import Py DecimalModel SoecInterfaceModel.
Import ListNotations.
Open Scope string_scope.
Open Scope list_scope.
Open Scope nat_scope.

(** ** Specification: where numbers are in a file, and what they are called *)
(** the [j]-th number after the label, on the [i]-th line from line [s] *)
Definition printed (file : list string) (s i j : nat) (v : fl) : Prop :=
  exists line t, nth_error file (i + s) = Some line /\ nth_error (split line) (S j) = Some t /\ parse_float t = Some v.
(** VASP: XX YY ZZ XY YZ ZX; Voigt: XX YY ZZ YZ ZX XY *)
Definition vasp_axes (i : nat) : nat * nat := nth i [(0, 0); (1, 1); (2, 2); (0, 1); (1, 2); (2, 0)] (9, 9).
Definition voigt_axes (p : nat) : nat * nat := nth p [(0, 0); (1, 1); (2, 2); (1, 2); (2, 0); (0, 1)] (8, 8).

(** ** Filling *)
Lemma fill_other l f m m' st a b : fill l f m = (m', st) -> ~ In (a, b) l -> m' a b = m a b.
Proof.
  revert m. induction l as [|[i j] r IH]; intros m E N; cbn [fill] in E; [congruence|].
  destruct (f i j); try (replace m' with m by congruence; reflexivity).
  rewrite (IH _ E) by (intro; apply N; now right). unfold put.
  destruct (a =? i) eqn:A; [|reflexivity]. destruct (b =? j) eqn:B; [|reflexivity].
  apply Nat.eqb_eq in A, B. subst. exfalso. apply N. now left.
Qed.
Lemma fill_done l f m m' : NoDup l -> fill l f m = (m', None) -> forall a b, In (a, b) l -> f a b = Value (m' a b).
Proof.
  revert m. induction l as [|[i j] r IH]; intros m ND E a b I; [destruct I|]. cbn [fill] in E.
  inversion ND as [|x y NI ND']; subst. destruct (f i j) as [v| |] eqn:F; try discriminate.
  destruct I as [Q|I].
  - replace a with i by congruence. replace b with j by congruence. rewrite F, (fill_other _ _ _ _ _ _ _ E NI).
    unfold put. now rewrite !Nat.eqb_refl.
  - exact (IH _ ND' E a b I).
Qed.
Lemma fill_total l f m : (forall a b, In (a, b) l -> exists v, f a b = Value v) -> exists m', fill l f m = (m', None).
Proof.
  revert m. induction l as [|[i j] r IH]; intros m H; cbn [fill]; [eauto|].
  destruct (H i j) as [v ->]; [now left|]. apply IH. intros. apply H. now right.
Qed.
Lemma full_in a b : In (a, b) full <-> a < 6 /\ b < 6.
Proof.
  unfold full. rewrite in_flat_map. split.
  - intros (i & I & J). rewrite in_map_iff in J. destruct J as (j & Q & J). apply in_seq in I, J. split; [replace a with i by congruence|replace b with j by congruence]; lia.
  - intros [A B]. exists a. split; [apply in_seq; lia|]. apply in_map_iff. exists b. split; [reflexivity|apply in_seq; lia].
Qed.
Lemma upper_in a b : In (a, b) upper <-> a <= b < 6.
Proof.
  unfold upper. rewrite in_flat_map. split.
  - intros (i & I & J). rewrite in_map_iff in J. destruct J as (j & Q & J). apply in_seq in I, J.
    replace a with i by congruence. replace b with (j + i) by congruence. lia.
  - intros A. exists a. split; [apply in_seq; lia|]. apply in_map_iff. exists (b - a). split; [f_equal; lia|apply in_seq; lia].
Qed.
Definition same_pair (x y : nat * nat) : bool := ((fst x =? fst y) && (snd x =? snd y))%bool.
Fixpoint nodupb (l : list (nat * nat)) : bool := match l with [] => true | x :: r => (negb (existsb (same_pair x) r) && nodupb r)%bool end.
Lemma nodup_by_count (l : list (nat * nat)) : nodupb l = true -> NoDup l.
Proof.
  induction l as [|x r IH]; cbn [nodupb]; intros H; [constructor|]. apply andb_true_iff in H. destruct H as [A B]. constructor; [|auto].
  intros I. apply negb_true_iff in A. assert (T : existsb (same_pair x) r = true).
  { apply existsb_exists. exists x. split; [exact I|]. unfold same_pair. now rewrite !Nat.eqb_refl. }
  congruence.
Qed.
Lemma full_nodup : NoDup full.
Proof. apply nodup_by_count. vm_compute. reflexivity. Qed.
Lemma upper_nodup : NoDup upper.
Proof. apply nodup_by_count. vm_compute. reflexivity. Qed.

(** ** C56 *)
(** A kilobar is 1e8 Pa, a gigapascal 1e9. *)
Definition in_GPa (v : fl) : fl := match v with Num x => Num (x * 1e8 / 1e9)%R | NaN => NaN end.
Lemma tenth_in_GPa v : tenth v = in_GPa v.
Proof. destruct v as [x|]; [|reflexivity]. unfold tenth, in_GPa. f_equal. field. Qed.
Lemma vasp_cell_printed file s i j v : vasp_cell file s i j = Value v <-> exists x, printed file s i j x /\ v = in_GPa x.
Proof.
  unfold vasp_cell, printed, number. rewrite Nat.add_1_r. split.
  - destruct (nth_error file (i + s)) as [line|]; [|discriminate].
    destruct (nth_error (split line) (S j)) as [t|] eqn:E; [|discriminate].
    destruct (parse_float t) as [x|] eqn:P; [|discriminate]. intros Q. exists x. split; [eauto 6|]. rewrite <- tenth_in_GPa. congruence.
  - intros (x & (line & t & -> & -> & ->) & ->). now rewrite <- tenth_in_GPa.
Qed.
Lemma printed_unique file s i j v w : printed file s i j v -> printed file s i j w -> v = w.
Proof. intros (l & t & A & B & D) (l' & t' & A' & B' & D'). congruence. Qed.
Lemma vasp_completed file m m' : vasp_load file m = (m', Completed) ->
  exists s m0, vasp_start_line file = Some s /\ fill full (vasp_cell file s) m = (m0, None) /\ m' = exchange m0.
Proof.
  unfold vasp_load. destruct (is_vasp_output file); [|discriminate]. cbn [negb].
  destruct (vasp_start_line file) as [s|]; [|discriminate].
  destruct (fill full (vasp_cell file s) m) as [m0 [st|]] eqn:F; [|intros Q; exists s, m0; repeat split; congruence].
  intros Q. assert (st = Completed) by congruence. subst. exfalso. clear Q. revert m F.
  generalize full. induction l as [|[i j] r IH]; intros m F; cbn [fill] in F; [discriminate|]. destruct (vasp_cell file s i j); try discriminate. exact (IH _ F).
Qed.
(** The component stored at Voigt position (p, q) is the one printed for the
    axes that belong there, yz and zx being exchanged. *)
Definition yz_zx (p : nat) : nat := if p =? 3 then 4 else if p =? 4 then 3 else p.
Lemma exch_axes i p : p < 6 -> i < 6 -> vasp_axes i = voigt_axes (yz_zx p) -> i = exch p.
Proof.
  intros Hp Hi E. do 6 (destruct p as [|p]; [do 6 (destruct i as [|i]; [first [reflexivity|discriminate E]|]); lia|]). lia.
Qed.
Theorem C56_exchanged file m m' : vasp_load file m = (m', Completed) ->
  exists s, vasp_start_line file = Some s /\
  forall p q i j, p < 6 -> q < 6 -> i < 6 -> j < 6 ->
    vasp_axes i = voigt_axes (yz_zx p) -> vasp_axes j = voigt_axes (yz_zx q) ->
    exists x, printed file s i j x /\ m' p q = in_GPa x.
Proof.
  intros E. destruct (vasp_completed _ _ _ E) as (s & m0 & S0 & F & ->). exists s. split; [exact S0|].
  intros p q i j Hp Hq Hi Hj AI AJ. apply exch_axes in AI; [|assumption..]. apply exch_axes in AJ; [|assumption..]. subst i j.
  pose proof (fill_done _ _ _ _ full_nodup F (exch p) (exch q) (proj2 (full_in _ _) (conj Hi Hj))) as C.
  apply vasp_cell_printed in C. destruct C as (x & P & Q). exists x. split; [exact P|exact Q].
Qed.
(** So every component without yz or zx shear is right, C66 included... *)
Theorem C56_right_components file m m' : vasp_load file m = (m', Completed) ->
  exists s, vasp_start_line file = Some s /\
  forall p q i j, p < 6 -> q < 6 -> i < 6 -> j < 6 -> p <> 3 -> p <> 4 -> q <> 3 -> q <> 4 ->
    vasp_axes i = voigt_axes p -> vasp_axes j = voigt_axes q ->
    exists x, printed file s i j x /\ m' p q = in_GPa x.
Proof.
  intros E. destruct (C56_exchanged _ _ _ E) as (s & S0 & H). exists s. split; [exact S0|].
  intros p q i j Hp Hq Hi Hj P3 P4 Q3 Q4 AI AJ.
  assert (Y : forall p, p <> 3 -> p <> 4 -> yz_zx p = p).
  { intros x A B. unfold yz_zx. apply Nat.eqb_neq in A, B. now rewrite A, B. }
  apply (H p q i j); try assumption; rewrite Y by assumption; assumption.
Qed.
(** ... and the whole matrix is right exactly when the printed one is unchanged
    by exchanging yz and zx. *)
Definition correct (file : list string) (s : nat) (m : flmat) : Prop :=
  forall p q i j x, p < 6 -> q < 6 -> i < 6 -> j < 6 ->
    vasp_axes i = voigt_axes p -> vasp_axes j = voigt_axes q -> printed file s i j x -> m p q = in_GPa x.
Definition yz_zx_alike (file : list string) (s : nat) : Prop :=
  forall p q i j i' j' x y, p < 6 -> q < 6 -> i < 6 -> j < 6 -> i' < 6 -> j' < 6 ->
    vasp_axes i = voigt_axes p -> vasp_axes j = voigt_axes q ->
    vasp_axes i' = voigt_axes (yz_zx p) -> vasp_axes j' = voigt_axes (yz_zx q) ->
    printed file s i j x -> printed file s i' j' y -> in_GPa x = in_GPa y.
Lemma has_axes p : p < 6 -> exists i, i < 6 /\ vasp_axes i = voigt_axes p.
Proof.
  intros H. do 6 (destruct p as [|p]; [first [exists 0; split; [lia|reflexivity]|exists 1; split; [lia|reflexivity]|exists 2; split; [lia|reflexivity]
    |exists 3; split; [lia|reflexivity]|exists 4; split; [lia|reflexivity]|exists 5; split; [lia|reflexivity]]|]). lia.
Qed.
Lemma yz_zx_range p : p < 6 -> yz_zx p < 6.
Proof. intros H. unfold yz_zx. destruct (p =? 3); [lia|]. destruct (p =? 4); lia. Qed.
Theorem C56_correct_iff file m m' s : vasp_load file m = (m', Completed) -> vasp_start_line file = Some s ->
  (correct file s m' <-> yz_zx_alike file s).
Proof.
  intros E S1. destruct (C56_exchanged _ _ _ E) as (s' & S0 & H). replace s' with s in * by congruence. split.
  - intros CO p q i j i' j' x y Hp Hq Hi Hj Hi' Hj' AI AJ AI' AJ' PX PY.
    rewrite <- (CO p q i j x) by assumption.
    destruct (H p q i' j') as (z & PZ & ->); try assumption. now rewrite (printed_unique _ _ _ _ _ _ PY PZ).
  - intros Y p q i j x Hp Hq Hi Hj AI AJ PX.
    destruct (has_axes (yz_zx p) (yz_zx_range p Hp)) as (i' & Hi' & AI').
    destruct (has_axes (yz_zx q) (yz_zx_range q Hq)) as (j' & Hj' & AJ').
    destruct (H p q i' j') as (z & PZ & ->); try assumption. symmetry. apply (Y p q i j i' j'); assumption.
Qed.
(** A file in which all numbers can be read is read. *)
Theorem C56_reads file m s : existsb (contains soec_clamped) file = true -> vasp_start_line file = Some s ->
  (forall i j, i < 6 -> j < 6 -> exists x, printed file s i j x) -> exists m', vasp_load file m = (m', Completed).
Proof.
  intros O S0 P. unfold vasp_load, is_vasp_output. rewrite O, S0. cbn [negb].
  destruct (fill_total full (vasp_cell file s) m) as [m0 ->]; [|eauto].
  intros a b I. apply full_in in I. destruct (P a b) as [x X]; [lia..|]. exists (in_GPa x). apply vasp_cell_printed. eauto.
Qed.
(** Which table: the total one when present, else the (last) clamped-ion one. *)
Definition plain (l : list string) : Prop := Forall (fun x => contains soec_relaxed x = false) l.
Lemma scan_plain l : plain l -> forall c a b, fold_left scan l (c, a, b) =
  (c + List.length l, snd (fst (fold_left scan l (c, a, b))), b).
Proof.
  induction 1 as [|x l Hx _ IH]; intros c a b; cbn [fold_left List.length]; [now rewrite Nat.add_0_r|].
  unfold scan at 2 4. rewrite Hx. rewrite IH. cbn [fst snd]. f_equal. f_equal. lia.
Qed.
Lemma scan_clamped_none l : Forall (fun x => contains soec_clamped x = false) l -> forall c a b, snd (fst (fold_left scan l (c, a, b))) = a.
Proof.
  induction 1 as [|x l Hx _ IH]; intros c a b; cbn [fold_left]; [reflexivity|].
  unfold scan at 2. rewrite Hx. destruct (contains soec_relaxed x); apply IH.
Qed.
Theorem C56_total_table pre h post : plain pre -> plain post -> contains soec_relaxed h = true ->
  vasp_start_line (pre ++ h :: post) = Some (List.length pre + 3).
Proof.
  intros A B H. unfold vasp_start_line. rewrite fold_left_app. cbn [fold_left]. rewrite (scan_plain pre A). unfold scan at 2.
  rewrite H. rewrite (scan_plain post B). reflexivity.
Qed.
Theorem C56_clamped_table pre h post : plain (pre ++ h :: post) -> contains soec_clamped h = true ->
  Forall (fun x => contains soec_clamped x = false) post -> vasp_start_line (pre ++ h :: post) = Some (List.length pre + 3).
Proof.
  intros A H N. unfold vasp_start_line. rewrite (scan_plain _ A). cbn [fst snd].
  rewrite fold_left_app. cbn [fold_left]. apply Forall_app in A. destruct A as [A B]. inversion B as [|x y HX HB]; subst.
  rewrite (scan_plain pre A). unfold scan at 2. rewrite H, HX. rewrite scan_clamped_none by exact N. reflexivity.
Qed.
(** With two total tables the last should be read, but from one line too early. *)
Theorem C56_second_total_refuted pre h mid h' post : plain pre -> plain mid -> plain post ->
  contains soec_relaxed h = true -> contains soec_relaxed h' = true ->
  vasp_start_line (pre ++ h :: mid ++ h' :: post) = Some (List.length pre + 1 + List.length mid + 2) /\
  nth_error (pre ++ h :: mid ++ h' :: post) (List.length pre + 1 + List.length mid) = Some h'.
Proof.
  intros A B D H H'. split.
  - unfold vasp_start_line. rewrite fold_left_app. cbn [fold_left]. rewrite (scan_plain pre A). unfold scan at 2.
    rewrite H. rewrite fold_left_app. cbn [fold_left]. rewrite (scan_plain mid B). unfold scan at 2.
    rewrite H'. rewrite (scan_plain post D). f_equal. lia.
  - rewrite nth_error_app2 by lia. replace (List.length pre + 1 + List.length mid - List.length pre) with (S (List.length mid)) by lia.
    cbn [nth_error]. rewrite nth_error_app2 by lia. now rewrite Nat.sub_diag.
Qed.
(** An orthorhombic crystal: C44 and C55 come out exchanged. *)
Definition outcar : list string :=
  [" SYMMETRIZED ELASTIC MODULI (kBar)"; " Direction XX YY ZZ XY YZ ZX"; " -----";
   " XX 3000 900 800 0 0 0"; " YY 900 2500 700 0 0 0"; " ZZ 800 700 2000 0 0 0";
   " XY 0 0 0 660 0 0"; " YZ 0 0 0 0 440 0"; " ZX 0 0 0 0 0 550"].
Definition tenths (n : N) : fl := in_GPa (Num (1 * IZR (Z.of_N n) * powerRZ 10 0)).
Example C56_instance m : exists m', vasp_load outcar m = (m', Completed) /\
  m' 3 3 = tenths 550 /\ m' 4 4 = tenths 440 /\ m' 5 5 = tenths 660 /\ m' 0 0 = tenths 3000.
Proof. eexists. split; [reflexivity|]. unfold tenths. rewrite <- !tenth_in_GPa. repeat split; reflexivity. Qed.
Theorem C56_refuted : exists file s m', vasp_load file (fun _ _ => Num 0) = (m', Completed) /\ vasp_start_line file = Some s /\
  ~ correct file s m'.
Proof.
  destruct (C56_instance (fun _ _ => Num 0)) as (m' & E & M & _). exists outcar, 3, m'. split; [exact E|]. split; [reflexivity|].
  intros CO. specialize (CO 3 3 4 4 (Num (1 * IZR (Z.of_N 440) * powerRZ 10 0))). rewrite M in CO.
  assert (Q : tenths 550 = in_GPa (Num (1 * IZR (Z.of_N 440) * powerRZ 10 0))).
  { apply CO; try lia; try reflexivity. exists " YZ 0 0 0 0 440 0", "440". repeat split; reflexivity. }
  unfold tenths, in_GPa in Q. injection Q as Q. change (Z.of_N 550) with 550%Z in Q. change (Z.of_N 440) with 440%Z in Q.
  cbn [powerRZ] in Q. lra.
Qed.
Example C56_total_instance : let h := " TOTAL ELASTIC MODULI (kBar)" in
  vasp_start_line (outcar ++ h :: outcar) = Some 12.
Proof. apply (C56_total_table outcar " TOTAL ELASTIC MODULI (kBar)" outcar); [repeat constructor|repeat constructor|reflexivity]. Qed.

(** ** C38, VASP: each file is read on its own, but an existing reader shows the
    numbers of the last one. *)
Theorem C38_vasp_isolated file m m' n n' : vasp_load file m = (m', Completed) -> vasp_load file n = (n', Completed) ->
  forall p q, p < 6 -> q < 6 -> m' p q = n' p q.
Proof.
  intros A B p q Hp Hq. destruct (C56_exchanged _ _ _ A) as (s & S0 & H). destruct (C56_exchanged _ _ _ B) as (s' & S0' & H').
  replace s' with s in * by congruence.
  destruct (has_axes (yz_zx p) (yz_zx_range p Hp)) as (i & Hi & AI). destruct (has_axes (yz_zx q) (yz_zx_range q Hq)) as (j & Hj & AJ).
  destruct (H p q i j) as (x & PX & ->); try assumption. destruct (H' p q i j) as (y & PY & ->); try assumption.
  now rewrite (printed_unique _ _ _ _ _ _ PX PY).
Qed.
Theorem C38_vasp_last_file_refuted files f m : vasp_readers (files ++ [f]) m = fst (vasp_load f (vasp_readers files m)).
Proof. unfold vasp_readers. now rewrite fold_left_app. Qed.
(** A file that cannot be read leaves a mixture of both. *)
Theorem C38_vasp_mixture_refuted file m m' i j : vasp_load file m = (m', Error i j) ->
  m' i j = m i j /\ forall a b, (a < i \/ (a = i /\ b < j)) -> a < 6 -> b < 6 -> exists s x, printed file s a b x /\ m' a b = in_GPa x.
Proof.
  unfold vasp_load. destruct (is_vasp_output file); [|discriminate]. cbn [negb].
  destruct (vasp_start_line file) as [s|]; [|discriminate].
  destruct (fill full (vasp_cell file s) m) as [m0 [st|]] eqn:F; [|discriminate].
  intros Q. replace m' with m0 by congruence. assert (st = Error i j) by congruence. subst st. clear Q m'.
  (* position of the failing cell *)
  assert (G : forall l m, NoDup l -> fill l (vasp_cell file s) m = (m0, Some (Error i j)) ->
     exists l1 l2, l = l1 ++ (i, j) :: l2 /\ (forall a b, In (a, b) l1 -> vasp_cell file s a b = Value (m0 a b)) /\
       (forall a b, ~ In (a, b) l1 -> m0 a b = m a b)).
  { induction l as [|[a b] r IH]; intros m1 ND E; cbn [fill] in E; [discriminate|]. inversion ND as [|x y NI ND']; subst.
    destruct (vasp_cell file s a b) as [v| |] eqn:FC; try discriminate.
    - destruct (IH _ ND' E) as (l1 & l2 & -> & V & O). exists ((a, b) :: l1), l2. split; [reflexivity|]. split.
      + intros c d [Q|I]; [|now apply V]. replace c with a in * by congruence. replace d with b in * by congruence.
        rewrite O by (intro I; apply NI, in_or_app; now left). unfold put. now rewrite !Nat.eqb_refl.
      + intros c d N. rewrite O by (intro; apply N; now right). unfold put.
        destruct (c =? a) eqn:C1; [|reflexivity]. destruct (d =? b) eqn:C2; [|reflexivity]. apply Nat.eqb_eq in C1, C2. subst. exfalso. apply N. now left.
    - replace m1 with m0 by congruence. assert (a = i /\ b = j) as [-> ->] by (split; congruence).
      exists [], r. split; [reflexivity|]. split; [intros c d []|reflexivity]. }
  destruct (G full m full_nodup F) as (l1 & l2 & SP & V & O). split.
  - apply O. intro I. pose proof full_nodup as ND. rewrite SP in ND. apply NoDup_remove_2 in ND. apply ND, in_or_app. now left.
  - intros a b LT A6 B6. exists s.
    assert (I : In (a, b) l1).
    { assert (IJ : In (i, j) full) by (rewrite SP; apply in_or_app; right; now left). apply full_in in IJ.
      (* order of the list *)
      assert (ORD : forall l1 l2, full = l1 ++ (i, j) :: l2 -> In (a, b) l1).
      { clear - LT A6 B6 IJ. intros l1 l2 E.
        assert (POS : nth_error full (List.length l1) = Some (i, j)) by (rewrite E, nth_error_app2, Nat.sub_diag by lia; reflexivity).
        assert (NE : forall x y, x < 6 -> y < 6 -> nth_error full (6 * x + y) = Some (x, y)).
        { intros x y X Y. do 6 (destruct x as [|x]; [do 6 (destruct y as [|y]; [reflexivity|]); lia|]). lia. }
        assert (L : List.length l1 = 6 * i + j).
        { apply (proj1 (NoDup_nth_error full) full_nodup); [apply nth_error_Some; rewrite POS; discriminate|]. rewrite POS. symmetry. apply NE; lia. }
        pose proof (NE a b A6 B6) as AB. rewrite E, nth_error_app1 in AB by nia. apply nth_error_In in AB. exact AB. }
      exact (ORD l1 l2 SP). }
    specialize (V a b I). apply vasp_cell_printed in V. exact V.
Qed.
Example C38_vasp_mixture_instance : exists m', vasp_load (firstn 6 outcar ++ [" XY 7 x"]) (fun _ _ => Num 1) = (m', Error 3 1) /\ m' 3 1 = Num 1.
Proof. eexists. split; reflexivity. Qed.

(** ** C58 *)
(** numbers of the upper triangle: row [i] has the columns i..5 *)
Definition upper_printed (file : list string) (i c : nat) (v : fl) : Prop :=
  exists line t, nth_error file (i + crystal_start_line file) = Some line /\ nth_error (split (no_bars line)) (c - i) = Some t /\ parse_float t = Some v.
Lemma crystal_cell_printed file i c v : crystal_cell file (crystal_start_line file) i c = Value v <-> upper_printed file i c v.
Proof.
  unfold crystal_cell, upper_printed, number. split.
  - destruct (nth_error file _) as [line|]; [|discriminate]. destruct (nth_error (split (no_bars line)) (c - i)) as [t|] eqn:E; [|discriminate].
    destruct (parse_float t) as [x|] eqn:P; [|discriminate]. intros Q. exists line, t. repeat split; congruence.
  - intros (line & t & -> & -> & ->). reflexivity.
Qed.
Lemma fill_not_completed l f m m' : fill l f m = (m', Some Completed) -> False.
Proof. revert m. induction l as [|[i j] r IH]; intros m F; cbn [fill] in F; [discriminate|]. destruct (f i j); try discriminate. exact (IH _ F). Qed.
Lemma fadd_0_r v : fadd v (Num 0) = v.
Proof. destruct v; cbn; [f_equal; apply Rplus_0_r|reflexivity]. Qed.
Lemma fadd_0_l v : fadd (Num 0) v = v.
Proof. destruct v; cbn; [f_equal; apply Rplus_0_l|reflexivity]. Qed.
Lemma crystal_completed file c c' : crystal_load file c = (c', Completed) ->
  (forall i j, i <= j < 6 -> upper_printed file i j (c_stiffness c' i j)) /\
  (forall i j, j < i < 6 -> c_stiffness c' i j = fadd (c_stiffness c i j) (c_stiffness c' j i)).
Proof.
  unfold crystal_load. destruct (existsb (contains soec_option) file); [|discriminate]. destruct (existsb (contains soec_completed) file); [|discriminate]. cbn [negb].
  destruct (crystal_density file) as [d|e]; [|discriminate].
  destruct (fill upper (crystal_cell file (crystal_start_line file)) (c_stiffness c)) as [m [st|]] eqn:F.
  { intros Q. assert (st = Completed) by congruence. subst. exfalso. exact (fill_not_completed _ _ _ _ F). }
  intros Q. replace c' with {| c_stiffness := mirror m; c_density := d |} by congruence. cbn [c_stiffness]. clear Q.
  assert (U : forall i j, i <= j -> mirror m i j = m i j).
  { intros i j H. unfold mirror. destruct (j <? i) eqn:L; [apply Nat.ltb_lt in L; lia|apply fadd_0_r]. }
  split.
  - intros i j H. rewrite U by lia. apply crystal_cell_printed. apply (fill_done _ _ _ _ upper_nodup F). apply upper_in. lia.
  - intros i j H. rewrite (U j i) by lia. unfold mirror. destruct (j <? i) eqn:L; [|apply Nat.ltb_ge in L; lia].
    f_equal. apply (fill_other _ _ _ _ _ _ _ F). rewrite upper_in. lia.
Qed.
(** First read of the process: the symmetric completion of what is printed. *)
Theorem C58_first file c' : crystal_load file crystal_new = (c', Completed) ->
  forall i j, i < 6 -> j < 6 -> c_stiffness c' i j = c_stiffness c' j i /\
    upper_printed file (Nat.min i j) (Nat.max i j) (c_stiffness c' i j).
Proof.
  intros E. destruct (crystal_completed _ _ _ E) as [U L].
  assert (LO : forall i j, j < i < 6 -> c_stiffness c' i j = c_stiffness c' j i).
  { intros i j H. rewrite L by exact H. cbn [c_stiffness crystal_new]. apply fadd_0_l. }
  intros i j Hi Hj. destruct (Nat.lt_trichotomy i j) as [A|[A|A]].
  - rewrite Nat.min_l, Nat.max_r by lia. split; [symmetry; apply LO; lia|apply U; lia].
  - subst j. rewrite Nat.min_id, Nat.max_id. split; [reflexivity|apply U; lia].
  - rewrite Nat.min_r, Nat.max_l by lia. split; [apply LO; lia|]. rewrite LO by lia. apply U. lia.
Qed.
(** Any history: below the diagonal is the sum over all files completed so far. *)
Inductive reads : crystal_class -> list (list string) -> crystal_class -> list (list string) -> Prop :=
  | reads_nil c : reads c [] c []
  | reads_done c f c1 r c2 done : crystal_load f c = (c1, Completed) -> reads c1 r c2 done -> reads c (f :: r) c2 (f :: done)
  | reads_fail c f c1 st r c2 done : crystal_load f c = (c1, st) -> st <> Completed -> reads c1 r c2 done -> reads c (f :: r) c2 done.
Lemma reads_exist files c : exists done, reads c files (crystal_readers files c) done.
Proof.
  revert c. induction files as [|f r IH]; intros c; [exists []; constructor|].
  unfold crystal_readers. cbn [fold_left]. destruct (crystal_load f c) as [c1 st] eqn:E. cbn [fst].
  destruct (IH c1) as [done D]. unfold crystal_readers in D.
  assert (DEC : st = Completed \/ st <> Completed) by (destruct st; [now left|now right..]).
  destruct DEC as [->|N]; eexists; [eapply reads_done|eapply reads_fail]; eauto.
Qed.
Fixpoint total (l : list fl) (v : fl) : fl := match l with [] => v | x :: r => total r (fadd v x) end.
Lemma failed_lower file c c' st : crystal_load file c = (c', st) -> st <> Completed -> forall i j, j < i -> c_stiffness c' i j = c_stiffness c i j.
Proof.
  unfold crystal_load. destruct (existsb (contains soec_option) file); [|cbn [negb]; intros E _; replace c' with c by congruence; reflexivity].
  destruct (existsb (contains soec_completed) file); [|cbn [negb]; intros E _; replace c' with c by congruence; reflexivity]. cbn [negb].
  destruct (crystal_density file) as [d|e]; [|cbn [negb]; intros E _; replace c' with c by congruence; reflexivity].
  destruct (fill upper (crystal_cell file (crystal_start_line file)) (c_stiffness c)) as [m [s|]] eqn:F.
  - intros E _ i j H. replace c' with {| c_stiffness := m; c_density := d |} by congruence. cbn. apply (fill_other _ _ _ _ _ _ _ F). rewrite upper_in. lia.
  - intros E N. exfalso. apply N. congruence.
Qed.
Theorem C58_history files i j : j < i < 6 ->
  exists done vals, reads crystal_new files (crystal_readers files crystal_new) done /\
    Forall2 (fun f v => upper_printed f j i v) done vals /\
    c_stiffness (crystal_readers files crystal_new) i j = total vals (Num 0).
Proof.
  intros H. destruct (reads_exist files crystal_new) as [done D]. exists done.
  assert (G : forall c files c' done, reads c files c' done -> exists vals, Forall2 (fun f v => upper_printed f j i v) done vals /\ c_stiffness c' i j = total vals (c_stiffness c i j)).
  { induction 1 as [c|c f c1 r c2 dn E _ (vals & F & V)|c f c1 st r c2 dn E N _ (vals & F & V)].
    - exists []. split; [constructor|reflexivity].
    - destruct (crystal_completed _ _ _ E) as [U L]. exists (c_stiffness c1 j i :: vals). split.
      + constructor; [apply U; lia|exact F].
      + cbn [total]. rewrite V, (L i j H). reflexivity.
    - exists vals. split; [exact F|]. rewrite V. now rewrite (failed_lower _ _ _ _ E N i j) by lia. }
  destruct (G _ _ _ _ D) as (vals & F & V). exists vals. auto.
Qed.
(** A completed second reading is symmetric only where the earlier value is zero. *)
Theorem C58_second_iff file c c' i j x y : crystal_load file c = (c', Completed) -> j < i < 6 ->
  c_stiffness c i j = Num x -> c_stiffness c' j i = Num y ->
  (c_stiffness c' i j = c_stiffness c' j i <-> x = 0%R).
Proof.
  intros E H X Y. destruct (crystal_completed _ _ _ E) as [_ L]. rewrite L, X, Y by exact H. cbn. split.
  - intros Q. injection Q as Q. lra.
  - intros ->. f_equal. lra.
Qed.
Definition crystal_out : list string :=
  [" ELASTCON OPTION"; " GEOMETRY NOW FULLY CONSISTENT WITH THE GROUP"; " PRIMITIVE CELL - CENTRING CODE 1/0 VOLUME= 74.7 - DENSITY 3.5 g/cm^3";
   " SYMMETRIZED ELASTIC CONSTANTS FOR CUBIC CASE, IN GPa"; "";
   " | 300 90 90 0 0 0 |"; " | 300 90 0 0 0 |"; " | 300 0 0 0 |"; " | 150 0 0 |"; " | 150 0 |"; " | 150 |"; " FINAL RESULTS START"].
Definition units (n : N) : fl := Num (1 * IZR (Z.of_N n) * powerRZ 10 0).
Example C58_instance : exists c, crystal_load crystal_out crystal_new = (c, Completed) /\ c_stiffness c 0 1 = units 90 /\ c_stiffness c 1 0 = units 90 /\ c_stiffness c 2 2 = units 300.
Proof.
  destruct (crystal_load crystal_out crystal_new) as [c st] eqn:E.
  assert (ST : snd (crystal_load crystal_out crystal_new) = Completed) by reflexivity.
  rewrite E in ST. cbn [snd] in ST. subst st.
  destruct (crystal_completed _ _ _ E) as [U _]. exists c. split; [reflexivity|].
  assert (V : forall i j v w, upper_printed crystal_out i j v -> upper_printed crystal_out i j w -> v = w).
  { intros i j v w (l & t & A & B & D) (l' & t' & A' & B' & D'). congruence. }
  assert (P01 : upper_printed crystal_out 0 1 (units 90)) by (exists " | 300 90 90 0 0 0 |", "90"; repeat split; reflexivity).
  assert (P22 : upper_printed crystal_out 2 2 (units 300)) by (exists " | 300 0 0 0 |", "300"; repeat split; reflexivity).
  pose proof (U 0 1 ltac:(lia)) as U01. pose proof (U 2 2 ltac:(lia)) as U22.
  destruct (C58_first _ _ E 1 0 ltac:(lia) ltac:(lia)) as [S10 _].
  rewrite S10. repeat split; eapply V; eassumption.
Qed.
(** Reading one and the same file twice doubles everything below the diagonal. *)
Theorem C58_again_refuted file c c' : crystal_load file crystal_new = (c, Completed) -> crystal_load file c = (c', Completed) ->
  forall i j, j < i < 6 -> c_stiffness c' j i = c_stiffness c j i /\ c_stiffness c' i j = fadd (c_stiffness c j i) (c_stiffness c j i).
Proof.
  intros E E' i j H. destruct (crystal_completed _ _ _ E) as [U L]. destruct (crystal_completed _ _ _ E') as [U' L'].
  assert (Q : c_stiffness c' j i = c_stiffness c j i).
  { destruct (U j i ltac:(lia)) as (l & t & A & B & D). destruct (U' j i ltac:(lia)) as (l' & t' & A' & B' & D'). congruence. }
  split; [exact Q|]. rewrite L' by exact H. rewrite Q. rewrite L by exact H. cbn [c_stiffness crystal_new]. now rewrite fadd_0_l.
Qed.
Example C58_again_instance : exists c c', crystal_load crystal_out crystal_new = (c, Completed) /\ crystal_load crystal_out c = (c', Completed).
Proof. do 2 eexists. split; reflexivity. Qed.
(** C38, CRYSTAL: density is always that of the file; the matrix is not. *)
Theorem C38_crystal_density file c d c' d' : crystal_load file c = (c', Completed) -> crystal_load file d = (d', Completed) -> c_density c' = c_density d'.
Proof.
  unfold crystal_load. destruct (existsb (contains soec_option) file); [|discriminate]. destruct (existsb (contains soec_completed) file); [|discriminate]. cbn [negb].
  destruct (crystal_density file) as [x|e]; [|discriminate].
  destruct (fill upper _ (c_stiffness c)) as [m [st|]]; destruct (fill upper _ (c_stiffness d)) as [m2 [st2|]]; intros A B;
    assert (X := f_equal fst A); assert (Y := f_equal fst B); cbn [fst] in X, Y; rewrite <- X, <- Y; reflexivity.
Qed.
Theorem C38_crystal_not_isolated_refuted : exists file c c' d',
  crystal_load file crystal_new = (c', Completed) /\ crystal_load file c = (d', Completed) /\ c_stiffness c' 1 0 <> c_stiffness d' 1 0.
Proof.
  destruct C58_again_instance as (c & c' & A & B). exists crystal_out, c, c, c'. split; [exact A|]. split; [exact B|].
  destruct (C58_again_refuted _ _ _ A B 1 0 ltac:(lia)) as [_ Q]. rewrite Q.
  destruct C58_instance as (c0 & A0 & V1 & V2 & _). replace c0 with c in * by congruence. rewrite V1, V2.
  cbn. intros X. injection X as X. change (Z.of_N 90) with 90%Z in X. cbn [powerRZ] in X. lra.
Qed.
(** Density: grams per cubic centimetre times 1000, of the first cell printed
    once the geometry is final. *)
Theorem C58_density pre g mid p post t x :
  Forall (fun l => contains geometry_consistent l = false) pre -> contains geometry_consistent g = true -> contains primitive_cell g = false ->
  Forall (fun l => contains primitive_cell l = false) mid -> contains primitive_cell p = true ->
  last_but_one (split p) = Some t -> parse_float t = Some x ->
  crystal_density (pre ++ g :: mid ++ p :: post) = inl (fmul x (Num 1000)).
Proof.
  intros A G GP B P L X. unfold crystal_density.
  assert (M : forall b, b = true -> crystal_density_from b (mid ++ p :: post) = inl (fmul x (Num 1000))).
  { intros b ->. induction B as [|l r Hl _ IH]; cbn [app crystal_density_from orb].
    - rewrite P. cbn [andb]. rewrite L. unfold number. now rewrite X.
    - rewrite Hl. cbn [andb]. exact IH. }
  induction A as [|l r Hl _ IH]; cbn [app crystal_density_from].
  - rewrite G. rewrite GP. cbn [orb andb]. now apply M.
  - rewrite Hl. cbn [orb]. rewrite Bool.andb_false_r. exact IH.
Qed.
Example C58_density_instance : crystal_density crystal_out = inl (fmul (Num (1 * IZR (Z.of_N 35) * powerRZ 10 (-1))) (Num 1000)).
Proof. reflexivity. Qed.

Print Assumptions C56_exchanged.
Print Assumptions C56_right_components.
Print Assumptions C56_correct_iff.
Print Assumptions C56_reads.
Print Assumptions C56_total_table.
Print Assumptions C56_clamped_table.
Print Assumptions C56_second_total_refuted.
Print Assumptions C56_refuted.
Print Assumptions C38_vasp_isolated.
Print Assumptions C38_vasp_last_file_refuted.
Print Assumptions C38_vasp_mixture_refuted.
Print Assumptions C58_first.
Print Assumptions C58_history.
Print Assumptions C58_second_iff.
Print Assumptions C58_again_refuted.
Print Assumptions C38_crystal_density.
Print Assumptions C38_crystal_not_isolated_refuted.
Print Assumptions C58_density.
