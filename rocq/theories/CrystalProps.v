(** C57: frequencies of CRYSTAL outputs. *)
From Coq Require Import Reals String Ascii List Bool Arith ZArith NArith Lia Lra.
From Verif Require Import Py DecimalModel SoecInterfaceModel CrystalModel.
Import ListNotations.
Open Scope string_scope.
Open Scope list_scope.
Open Scope nat_scope.

(** ** The while loop and its result *)
Lemma item_skip {A} (l : list A) i : item l i = match skipn i l with x :: _ => Ok x | [] => Raises "IndexError" end.
Proof.
  unfold item. revert i. induction l as [|x l IH]; intros [|i]; cbn [nth_error skipn]; try reflexivity. apply IH.
Qed.
Lemma skipn_next {A} (l : list A) i x r : skipn i l = x :: r -> skipn (i + 1) l = r.
Proof.
  revert i. induction l as [|y l IH]; intros [|i]; cbn [skipn Nat.add]; try discriminate.
  - intros [= _ ->]. reflexivity.
  - apply IH.
Qed.
Lemma store_not_hangs b i v : store b i v <> Hangs.
Proof.
  revert i. induction b as [|x b IH]; intros [|i]; cbn [store]; try discriminate.
  destruct (store b i v) eqn:E; cbn [bind]; try discriminate. now elim (IH i).
Qed.
Lemma store_many_not_hangs k line : forall b f, store_many k line b f <> Hangs.
Proof.
  induction k as [|k IH]; intros b f; cbn [store_many]; [discriminate|].
  unfold item. destruct (nth_error line 3) as [s|]; cbn [bind]; [|discriminate].
  unfold to_float. destruct (parse_float s) as [v|]; cbn [bind]; [|discriminate].
  destruct (store b f v) eqn:E; cbn [bind]; [apply IH|discriminate|now elim (store_not_hangs b f v)].
Qed.
Lemma mode_line_not_hangs line b f : mode_line line b f <> Hangs.
Proof.
  unfold mode_line, item, to_int. destruct (nth_error line 0) as [t0|]; cbn [bind]; [|discriminate].
  destruct (parse_int (drop_last t0)); cbn [bind]; [|discriminate].
  destruct (nth_error line 1) as [t1|]; cbn [bind]; [|discriminate].
  destruct (parse_int t1); cbn [bind]; [|discriminate]. apply store_many_not_hangs.
Qed.
Lemma turns_stopped n data i m t : (forall s, t <> Running s) -> turns n data i m t = t.
Proof. destruct n; destruct t; intros H; try reflexivity. now elim (H s). Qed.
Lemma turns_add a b data i m t : turns (a + b) data i m t = turns b data i m (turns a data i m t).
Proof.
  revert t. induction a as [|a IH]; intros t; [reflexivity|].
  destruct t as [s| |]; cbn [turns Nat.add].
  - apply IH.
  - symmetry. apply turns_stopped. discriminate.
  - symmetry. apply turns_stopped. discriminate.
Qed.
Definition agrees (data : list string) (i m : nat) (s : loop) (r : res (list fl)) : Prop :=
  match r with
  | Ok b => exists n, turns n data i m (Running s) = Stopped b
  | Raises e => exists n, turns n data i m (Running s) = Failed e
  | Hangs => forall n, exists s', turns n data i m (Running s) = Running s'
  end.
Lemma loop_agrees data i m : forall rest b f c, skipn (i + c + 2) data = rest ->
  agrees data i m {| finished := false; band := b; line_counter := c; freq_counter := f |} (read_lines rest m b f).
Proof.
  induction rest as [|l r IH]; intros b f c E; cbn [read_lines].
  - exists 1. cbn [turns]. unfold turn_once. cbn [finished negb orb line_counter]. unfold tokens. rewrite item_skip, E. reflexivity.
  - assert (TK : tokens data (i + c + 2) = Ok (split l)) by (unfold tokens; rewrite item_skip, E; reflexivity).
    destruct (split l) as [|t0 line] eqn:SP.
    + set (s0 := {| finished := true; band := b; line_counter := c; freq_counter := f |}).
      assert (ST : forall n, turns (S n) data i m (Running {| finished := false; band := b; line_counter := c; freq_counter := f |})
                   = turns n data i m (Running s0)).
      { intros n. cbn [turns]. unfold turn_once at 1. cbn [finished negb orb line_counter]. rewrite TK. reflexivity. }
      destruct (Nat.eqb_spec f m) as [->|N].
      * exists 2. rewrite ST. cbn [turns]. unfold turn_once, s0. cbn [finished freq_counter negb orb]. rewrite Nat.eqb_refl. reflexivity.
      * assert (LP : forall n, turns n data i m (Running s0) = Running s0).
        { induction n as [|n IHn]; [reflexivity|]. cbn [turns]. unfold turn_once at 1. unfold s0 at 1 2 3 4 5 6. cbn [finished freq_counter line_counter band negb orb].
          apply Nat.eqb_neq in N. rewrite N, TK. exact IHn. }
        intros [|n]; [eexists; reflexivity|]. exists s0. rewrite ST. apply LP.
    + assert (ST : forall n, turns (S n) data i m (Running {| finished := false; band := b; line_counter := c; freq_counter := f |})
                   = turns n data i m (match mode_line (t0 :: line) b f with
                        | Ok (b', f') => Running {| finished := false; band := b'; line_counter := c + 1; freq_counter := f' |}
                        | Raises e => Failed e | Hangs => Failed "unreachable" end)).
      { intros n. cbn [turns]. unfold turn_once at 1. cbn [finished negb orb line_counter band freq_counter]. rewrite TK. reflexivity. }
      destruct (mode_line (t0 :: line) b f) as [[b' f']|e|] eqn:ML.
      * assert (NX : skipn (i + (c + 1) + 2) data = r).
        { replace (i + (c + 1) + 2) with (i + c + 2 + 1) by lia. exact (skipn_next _ _ _ _ E). }
        specialize (IH b' f' (c + 1) NX). unfold agrees in *.
        destruct (read_lines r m b' f').
        -- destruct IH as [n IH]. exists (S n). now rewrite ST.
        -- destruct IH as [n IH]. exists (S n). now rewrite ST.
        -- intros [|n]; [eexists; reflexivity|]. rewrite ST. apply IH.
      * exists 1. rewrite ST. reflexivity.
      * now elim (mode_line_not_hangs (t0 :: line) b f).
Qed.
(** The loop ends with a band, ends with an exception, or runs for ever. *)
Theorem C57_loop data i m :
  (forall b, read_band data i m = Ok b <-> exists n, turns n data i m (Running (loop_start m)) = Stopped b) /\
  (forall e, read_band data i m = Raises e <-> exists n, turns n data i m (Running (loop_start m)) = Failed e) /\
  (read_band data i m = Hangs <-> forall n, exists s, turns n data i m (Running (loop_start m)) = Running s).
Proof.
  assert (A := loop_agrees data i m (skipn (i + 2) data) (repeat (Num 0) m) 0 0 ltac:(now rewrite Nat.add_0_r)).
  fold (loop_start m) in A. fold (read_band data i m) in A.
  assert (U : forall a b t t', turns a data i m (Running (loop_start m)) = t -> turns b data i m (Running (loop_start m)) = t' ->
     (forall s, t <> Running s) -> (forall s, t' <> Running s) -> t = t').
  { intros a b t t' E E' NR NR'. destruct (Nat.le_ge_cases a b) as [L|L].
    - replace b with (a + (b - a)) in E' by lia. rewrite turns_add, E, turns_stopped in E' by exact NR. congruence.
    - replace a with (b + (a - b)) in E by lia. rewrite turns_add, E', turns_stopped in E by exact NR'. congruence. }
  destruct (read_band data i m) as [b0|e0|]; cbn [agrees] in A; (split; [|split]).
  - intros b. split; [intros [= <-]; exact A|]. intros [n E]. destruct A as [n0 E0].
    assert (Q : Stopped b0 = Stopped b) by (apply (U n0 n); congruence). congruence.
  - intros e. split; [discriminate|]. intros [n E]. destruct A as [n0 E0].
    assert (Q : Stopped b0 = Failed e) by (apply (U n0 n); congruence). congruence.
  - split; [discriminate|]. intros H. destruct A as [n0 E0]. destruct (H n0) as [s Es]. congruence.
  - intros b. split; [discriminate|]. intros [n E]. destruct A as [n0 E0].
    assert (Q : Failed e0 = Stopped b) by (apply (U n0 n); congruence). congruence.
  - intros e. split; [intros [= <-]; exact A|]. intros [n E]. destruct A as [n0 E0].
    assert (Q : Failed e0 = Failed e) by (apply (U n0 n); congruence). congruence.
  - split; [discriminate|]. intros H. destruct A as [n0 E0]. destruct (H n0) as [s Es]. congruence.
  - intros b. split; [discriminate|]. intros [n E]. destruct (A n). congruence.
  - intros e. split; [discriminate|]. intros [n E]. destruct (A n). congruence.
  - split; [intros _; exact A|reflexivity].
Qed.

(** ** What a table of modes says *)
(** One line of the table: modes n1 to n2 all have frequency v. *)
Definition says (l : string) (n1 n2 : Z) (v : fl) : Prop :=
  exists t0 t1 t2 t3 r, split l = t0 :: t1 :: t2 :: t3 :: r /\
    parse_int (drop_last t0) = Some n1 /\ parse_int t1 = Some n2 /\ parse_float t3 = Some v.
(** The frequencies listed by consecutive lines. A line whose second number is
    below the first lists none, whatever else is on it. *)
Inductive listed : list string -> list fl -> Prop :=
| listed_nil : listed [] []
| listed_some l n1 n2 v ls fs : says l n1 n2 v -> (n1 <= n2)%Z -> listed ls fs ->
    listed (l :: ls) (repeat v (Z.to_nat (n2 - n1 + 1)) ++ fs)
| listed_none l t0 t1 r n1 n2 ls fs : split l = t0 :: t1 :: r -> parse_int (drop_last t0) = Some n1 -> parse_int t1 = Some n2 ->
    (n2 < n1)%Z -> listed ls fs -> listed (l :: ls) fs.
Definition blank (l : string) : Prop := split l = [].

Lemma store_at pre x post v : store (pre ++ x :: post) (List.length pre) v = Ok (pre ++ v :: post).
Proof. induction pre as [|p pre IH]; cbn [app List.length store]; [reflexivity|]. now rewrite IH. Qed.
Lemma store_out b i v : List.length b <= i -> store b i v = Raises "IndexError".
Proof.
  revert i. induction b as [|x b IH]; intros i H; [reflexivity|]. cbn [List.length] in H.
  destruct i as [|i]; [lia|]. cbn [store]. now rewrite IH by lia.
Qed.
Lemma store_many_ok t0 t1 t2 t3 r v : parse_float t3 = Some v -> forall k done z,
  k <= z -> store_many k (t0 :: t1 :: t2 :: t3 :: r) (done ++ repeat (Num 0) z) (List.length done) =
  Ok ((done ++ repeat v k) ++ repeat (Num 0) (z - k), List.length done + k).
Proof.
  intros PF. induction k as [|k IH]; intros done z H.
  - cbn [store_many repeat]. now rewrite app_nil_r, Nat.sub_0_r, Nat.add_0_r.
  - cbn [store_many]. unfold item. cbn [nth_error bind]. unfold to_float. rewrite PF. cbn [bind].
    destruct z as [|z]; [lia|]. cbn [repeat]. rewrite store_at. cbn [bind].
    specialize (IH (done ++ [v]) z ltac:(lia)).
    rewrite <- app_assoc in IH. cbn [app] in IH. rewrite app_length in IH. cbn [List.length] in IH.
    replace (S (List.length done)) with (List.length done + 1) by lia. rewrite IH.
    f_equal. f_equal; [|lia]. cbn [repeat]. rewrite <- !app_assoc. cbn [app Nat.sub]. reflexivity.
Qed.
Lemma store_many_over t0 t1 t2 t3 r v : parse_float t3 = Some v -> forall k done z,
  z < k -> store_many k (t0 :: t1 :: t2 :: t3 :: r) (done ++ repeat (Num 0) z) (List.length done) = Raises "IndexError".
Proof.
  intros PF. induction k as [|k IH]; intros done z H; [lia|].
  cbn [store_many]. unfold item. cbn [nth_error bind]. unfold to_float. rewrite PF. cbn [bind].
  destruct z as [|z].
  - cbn [repeat]. rewrite app_nil_r, store_out by lia. reflexivity.
  - cbn [repeat]. rewrite store_at. cbn [bind]. specialize (IH (done ++ [v]) z ltac:(lia)).
    rewrite <- app_assoc in IH. cbn [app] in IH. rewrite app_length in IH. cbn [List.length] in IH.
    replace (S (List.length done)) with (List.length done + 1) by lia. exact IH.
Qed.
(** What a line that can be processed says. *)
Lemma mode_line_inv line done z b f : mode_line line (done ++ repeat (Num 0) z) (List.length done) = Ok (b, f) ->
  exists t0 t1 r n1 n2, line = t0 :: t1 :: r /\ parse_int (drop_last t0) = Some n1 /\ parse_int t1 = Some n2 /\
    (((n2 < n1)%Z /\ b = done ++ repeat (Num 0) z /\ f = List.length done) \/
     ((n1 <= n2)%Z /\ exists t2 t3 r' v, r = t2 :: t3 :: r' /\ parse_float t3 = Some v /\ Z.to_nat (n2 - n1 + 1) <= z /\
       b = (done ++ repeat v (Z.to_nat (n2 - n1 + 1))) ++ repeat (Num 0) (z - Z.to_nat (n2 - n1 + 1)) /\
       f = List.length done + Z.to_nat (n2 - n1 + 1))).
Proof.
  unfold mode_line. destruct line as [|t0 [|t1 r]]; unfold item at 1; cbn [nth_error bind]; [discriminate| |].
  - unfold to_int. destruct (parse_int (drop_last t0)); cbn [bind]; discriminate.
  - unfold to_int at 1. destruct (parse_int (drop_last t0)) as [n1|] eqn:P1; cbn [bind]; [|discriminate].
    unfold item at 1. cbn [nth_error bind]. unfold to_int. destruct (parse_int t1) as [n2|] eqn:P2; cbn [bind]; [|discriminate].
    intros E. exists t0, t1, r, n1, n2. repeat split; try assumption.
    destruct (Z.lt_ge_cases n2 n1) as [L|L].
    + left. replace (Z.to_nat (n2 - n1 + 1)) with 0 in E by lia. cbn [store_many] in E. injection E as <- <-. auto.
    + right. split; [exact L|]. destruct r as [|t2 [|t3 r']].
      * destruct (Z.to_nat (n2 - n1 + 1)) eqn:K; [lia|]. cbn [store_many] in E. unfold item in E. cbn [nth_error bind] in E. discriminate.
      * destruct (Z.to_nat (n2 - n1 + 1)) eqn:K; [lia|]. cbn [store_many] in E. unfold item in E. cbn [nth_error bind] in E. discriminate.
      * destruct (parse_float t3) as [v|] eqn:PF.
        -- exists t2, t3, r', v. split; [reflexivity|]. split; [exact PF|].
           destruct (Nat.le_gt_cases (Z.to_nat (n2 - n1 + 1)) z) as [LE|GT].
           ++ rewrite (store_many_ok t0 t1 t2 t3 r' v PF) in E by exact LE. injection E as <- <-. auto.
           ++ rewrite (store_many_over t0 t1 t2 t3 r' v PF) in E by exact GT. discriminate.
        -- destruct (Z.to_nat (n2 - n1 + 1)) eqn:K; [lia|]. cbn [store_many] in E. unfold item in E. cbn [nth_error bind] in E.
           unfold to_float in E. rewrite PF in E. discriminate.
Qed.
Lemma mode_line_says line t0 t1 t2 t3 r n1 n2 v done z : line = t0 :: t1 :: t2 :: t3 :: r ->
  parse_int (drop_last t0) = Some n1 -> parse_int t1 = Some n2 -> parse_float t3 = Some v -> Z.to_nat (n2 - n1 + 1) <= z ->
  mode_line line (done ++ repeat (Num 0) z) (List.length done) =
  Ok ((done ++ repeat v (Z.to_nat (n2 - n1 + 1))) ++ repeat (Num 0) (z - Z.to_nat (n2 - n1 + 1)), List.length done + Z.to_nat (n2 - n1 + 1)).
Proof.
  intros -> P1 P2 PF LE. unfold mode_line. unfold item at 1. cbn [nth_error bind]. unfold to_int at 1. rewrite P1. cbn [bind].
  unfold item at 1. cbn [nth_error bind]. unfold to_int. rewrite P2. cbn [bind]. now apply store_many_ok.
Qed.
Lemma mode_line_none line t0 t1 r n1 n2 b f : line = t0 :: t1 :: r -> parse_int (drop_last t0) = Some n1 -> parse_int t1 = Some n2 ->
  (n2 < n1)%Z -> mode_line line b f = Ok (b, f).
Proof.
  intros -> P1 P2 L. unfold mode_line. unfold item at 1. cbn [nth_error bind]. unfold to_int at 1. rewrite P1. cbn [bind].
  unfold item at 1. cbn [nth_error bind]. unfold to_int. rewrite P2. cbn [bind]. now replace (Z.to_nat (n2 - n1 + 1)) with 0 by lia.
Qed.
(** The result for a list of lines ended by a blank one. *)
Lemma read_lines_listed pre fs : listed pre fs -> forall done z bl post, blank bl -> List.length fs <= z ->
  read_lines (pre ++ bl :: post) (List.length done + z) (done ++ repeat (Num 0) z) (List.length done) =
  if List.length fs =? z then Ok (done ++ fs) else Hangs.
Proof.
  induction 1 as [|l n1 n2 v ls fs S0 L _ IH|l t0 t1 r n1 n2 ls fs SP P1 P2 L _ IH]; intros done z bl post B Z.
  - cbn [app read_lines]. rewrite B. destruct z as [|z].
    + cbn [repeat List.length]. rewrite Nat.add_0_r, Nat.eqb_refl. reflexivity.
    + cbn [List.length]. destruct (Nat.eqb_spec (List.length done) (List.length done + S z)); [lia|]. reflexivity.
  - cbn [app read_lines]. destruct S0 as (t0 & t1 & t2 & t3 & r & SP & P1 & P2 & PF).
    rewrite app_length, repeat_length in *. rewrite SP.
    rewrite (mode_line_says _ t0 t1 t2 t3 r n1 n2 v done z) by (try reflexivity; try assumption; lia).
    set (k := Z.to_nat (n2 - n1 + 1)) in *.
    specialize (IH (done ++ repeat v k) (z - k) bl post B ltac:(lia)). rewrite app_length, repeat_length in IH.
    replace (List.length done + k + (z - k)) with (List.length done + z) in IH by lia. rewrite IH.
    rewrite <- app_assoc. replace (List.length fs =? z - k) with (k + List.length fs =? z); [reflexivity|].
    destruct (Nat.eqb_spec (k + List.length fs) z), (Nat.eqb_spec (List.length fs) (z - k)); lia.
  - cbn [app read_lines]. rewrite SP. rewrite (mode_line_none _ t0 t1 r n1 n2) by (try reflexivity; assumption). now apply IH.
Qed.
Lemma read_lines_inv m : forall rest done z, m = List.length done + z ->
  (forall b, read_lines rest m (done ++ repeat (Num 0) z) (List.length done) = Ok b ->
     exists pre bl post fs, rest = pre ++ bl :: post /\ blank bl /\ listed pre fs /\ List.length fs = z /\ b = done ++ fs) /\
  (read_lines rest m (done ++ repeat (Num 0) z) (List.length done) = Hangs ->
     exists pre bl post fs, rest = pre ++ bl :: post /\ blank bl /\ listed pre fs /\ List.length fs < z).
Proof.
  induction rest as [|l r IH]; intros done z Em; cbn [read_lines]; [split; discriminate|].
  destruct (split l) as [|t0 line] eqn:SP.
  - destruct (Nat.eqb_spec (List.length done) m) as [E|E].
    + split; [|discriminate]. intros b [= <-]. exists [], l, r, []. assert (z = 0) by lia. subst z. cbn [repeat].
      rewrite app_nil_r. repeat split; try assumption; try constructor. 
    + split; [discriminate|]. intros _. exists [], l, r, []. cbn [List.length]. repeat split; try assumption; try constructor. lia.
  - destruct (mode_line (t0 :: line) (done ++ repeat (Num 0) z) (List.length done)) as [[b' f']|e|] eqn:ML; [| |now elim (mode_line_not_hangs _ _ _ ML)].
    2: { split; discriminate. }
    destruct (mode_line_inv _ _ _ _ _ ML) as (a0 & a1 & ar & n1 & n2 & EL & P1 & P2 & [(L & -> & ->)|(L & t2 & t3 & r' & v & -> & PF & LE & -> & ->)]).
    + destruct (IH done z Em) as [IO IHg]. split.
      * intros b E. destruct (IO b E) as (pre & bl & post & fs & -> & B & LS & LN & ->).
        exists (l :: pre), bl, post, fs. repeat split; try assumption.
        rewrite EL in SP. exact (listed_none l a0 a1 ar n1 n2 pre fs SP P1 P2 L LS).
      * intros E. destruct (IHg E) as (pre & bl & post & fs & -> & B & LS & LN).
        exists (l :: pre), bl, post, fs. repeat split; try assumption.
        rewrite EL in SP. exact (listed_none l a0 a1 ar n1 n2 pre fs SP P1 P2 L LS).
    + set (k := Z.to_nat (n2 - n1 + 1)) in *.
      assert (SY : says l n1 n2 v) by (exists a0, a1, t2, t3, r'; rewrite SP, EL; auto).
      destruct (IH (done ++ repeat v k) (z - k)) as [IO IHg]; [rewrite app_length, repeat_length; lia|].
      rewrite app_length, repeat_length in IO, IHg. split.
      * intros b E. destruct (IO b E) as (pre & bl & post & fs & -> & B & LS & LN & ->).
        exists (l :: pre), bl, post, (repeat v k ++ fs). repeat split; try assumption.
        -- exact (listed_some l n1 n2 v pre fs SY L LS).
        -- rewrite app_length, repeat_length. lia.
        -- now rewrite app_assoc.
      * intros E. destruct (IHg E) as (pre & bl & post & fs & -> & B & LS & LN).
        exists (l :: pre), bl, post, (repeat v k ++ fs). repeat split; try assumption.
        -- exact (listed_some l n1 n2 v pre fs SY L LS).
        -- rewrite app_length, repeat_length. lia.
Qed.

(** The loop stops exactly when the table, up to its first blank line, lists as
    many frequencies as there are modes; the band is that list. *)
Theorem C57_stops_iff data i m b : read_band data i m = Ok b <->
  exists pre bl post, skipn (i + 2) data = pre ++ bl :: post /\ blank bl /\ listed pre b /\ List.length b = m.
Proof.
  unfold read_band. split.
  - intros E. destruct (read_lines_inv m (skipn (i + 2) data) [] m eq_refl) as [H _].
    destruct (H b E) as (pre & bl & post & fs & P & B & L & N & ->). exists pre, bl, post. auto.
  - intros (pre & bl & post & -> & B & L & N).
    pose proof (read_lines_listed pre b L [] m bl post B ltac:(lia)) as Q. cbn [List.length app Nat.add] in Q. rewrite Q.
    now rewrite N, Nat.eqb_refl.
Qed.
(** It runs for ever exactly when the blank line comes before that, whatever
    follows in the file. *)
Theorem C57_hangs_iff data i m : read_band data i m = Hangs <->
  exists pre bl post fs, skipn (i + 2) data = pre ++ bl :: post /\ blank bl /\ listed pre fs /\ List.length fs < m.
Proof.
  unfold read_band. split.
  - intros E. destruct (read_lines_inv m (skipn (i + 2) data) [] m eq_refl) as [_ H]. exact (H E).
  - intros (pre & bl & post & fs & -> & B & L & N).
    pose proof (read_lines_listed pre fs L [] m bl post B ltac:(lia)) as Q. cbn [List.length app Nat.add] in Q. rewrite Q.
    destruct (Nat.eqb_spec (List.length fs) m); [lia|reflexivity].
Qed.
(** Listing too many is an exception. *)
Lemma listed_unique pre fs : listed pre fs -> forall gs, listed pre gs -> fs = gs.
Proof.
  induction 1 as [|l n1 n2 v ls fs (t0 & t1 & t2 & t3 & r & SP & P1 & P2 & PF) L _ IH|l t0 t1 r n1 n2 ls fs SP P1 P2 L _ IH]; intros gs G.
  - now inversion G.
  - inversion G as [|l' m1 m2 w ls' gs' (u0 & u1 & u2 & u3 & r' & SP' & P1' & P2' & PF') L' G' | l' u0 u1 r' m1 m2 ls' gs' SP' P1' P2' L' G']; subst;
      rewrite SP in SP'; injection SP' as; subst.
    + replace m1 with n1 by congruence. replace m2 with n2 by congruence. replace w with v by congruence. now rewrite (IH _ G').
    + replace m1 with n1 in L' by congruence. replace m2 with n2 in L' by congruence. lia.
  - inversion G as [|l' m1 m2 w ls' gs' (u0 & u1 & u2 & u3 & r' & SP' & P1' & P2' & PF') L' G' | l' u0 u1 r' m1 m2 ls' gs' SP' P1' P2' L' G']; subst;
      rewrite SP in SP'; injection SP' as; subst.
    + replace m1 with n1 in L' by congruence. replace m2 with n2 in L' by congruence. lia.
    + exact (IH _ G').
Qed.
Lemma listed_not_blank pre fs : listed pre fs -> Forall (fun l => ~ blank l) pre.
Proof.
  induction 1 as [|l n1 n2 v ls fs (t0 & t1 & t2 & t3 & r & SP & _) _ _ IH|l t0 t1 r n1 n2 ls fs SP _ _ _ _ IH]; constructor; try assumption;
    unfold blank; rewrite SP; discriminate.
Qed.
Lemma first_blank pre bl post pre' bl' post' : Forall (fun l => ~ blank l) pre -> Forall (fun l => ~ blank l) pre' ->
  blank bl -> blank bl' -> pre ++ bl :: post = pre' ++ bl' :: post' -> pre = pre'.
Proof.
  intros F. revert pre'. induction F as [|l pre N F IH]; intros pre' F' B B' E.
  - destruct F' as [|l' q N' F']; [reflexivity|]. cbn [app] in E. injection E as -> _. contradiction.
  - destruct F' as [|l' q N' F']; cbn [app] in E; injection E as.
    + subst l. contradiction.
    + subst l'. f_equal. now apply IH.
Qed.
Theorem C57_too_many data i m pre bl post fs : skipn (i + 2) data = pre ++ bl :: post -> blank bl -> listed pre fs ->
  m < List.length fs -> exists e, read_band data i m = Raises e.
Proof.
  intros E B L N. destruct (read_band data i m) as [b|e|] eqn:Q; [exfalso|eauto|exfalso].
  - apply C57_stops_iff in Q. destruct Q as (p & c & q & E' & B' & L' & N'). rewrite E in E'.
    apply first_blank in E'; try assumption; try (eapply listed_not_blank; eassumption). subst p.
    rewrite (listed_unique _ _ L _ L') in N. lia.
  - apply C57_hangs_iff in Q. destruct Q as (p & c & q & gs & E' & B' & L' & N'). rewrite E in E'.
    apply first_blank in E'; try assumption; try (eapply listed_not_blank; eassumption). subst p.
    rewrite (listed_unique _ _ L _ L') in N. lia.
Qed.
(** A file that ends before the blank line is an exception as well. *)
Theorem C57_no_blank data i m : Forall (fun l => ~ blank l) (skipn (i + 2) data) -> exists e, read_band data i m = Raises e.
Proof.
  intros F. destruct (read_band data i m) as [b|e|] eqn:Q; [exfalso|eauto|exfalso].
  - apply C57_stops_iff in Q. destruct Q as (p & c & q & E & B & _). rewrite E in F. apply Forall_app in F. destruct F as [_ F]. inversion F; contradiction.
  - apply C57_hangs_iff in Q. destruct Q as (p & c & q & gs & E & B & _). rewrite E in F. apply Forall_app in F. destruct F as [_ F]. inversion F; contradiction.
Qed.
(** ** Modes numbered 1, 2, ...: mode number n is given its own frequency. *)
Inductive numbered : Z -> list string -> Z -> Prop :=
| numbered_nil k : numbered k [] k
| numbered_cons k l n2 v ls e : says l k n2 v -> (k <= n2)%Z -> numbered (n2 + 1) ls e -> numbered k (l :: ls) e.
Lemma numbered_listed k ls e : numbered k ls e -> exists fs, listed ls fs /\ Z.of_nat (List.length fs) = (e - k)%Z /\ (k <= e)%Z /\
  forall l n1 n2 v, In l ls -> says l n1 n2 v -> forall n, (n1 <= n <= n2)%Z -> (k <= n < e)%Z /\ nth_error fs (Z.to_nat (n - k)) = Some v.
Proof.
  induction 1 as [k|k l n2 v ls e SY L _ (fs & LS & LN & LE & H)].
  - exists []. repeat split; [constructor|cbn [List.length]; lia|lia|destruct H|destruct H|destruct H].
  - exists (repeat v (Z.to_nat (n2 - k + 1)) ++ fs). repeat split.
    + now apply (listed_some l k n2 v).
    + rewrite app_length, repeat_length. lia.
    + lia.
    + destruct H0 as [<-|I].
      * destruct SY as (? & ? & ? & ? & ? & SP & P1 & P2 & PF), H1 as (? & ? & ? & ? & ? & SP' & P1' & P2' & PF').
        rewrite SP in SP'. injection SP' as; subst. replace n1 with k in * by congruence. lia.
      * destruct (H _ _ _ _ I H1 n H2). lia.
    + destruct H0 as [<-|I].
      * destruct SY as (? & ? & ? & ? & ? & SP & P1 & P2 & PF), H1 as (? & ? & ? & ? & ? & SP' & P1' & P2' & PF').
        rewrite SP in SP'. injection SP' as; subst. replace n1 with k in * by congruence. replace n0 with n2 in * by congruence. lia.
      * destruct (H _ _ _ _ I H1 n H2). lia.
    + destruct H0 as [<-|I].
      * destruct SY as (? & ? & ? & ? & ? & SP & P1 & P2 & PF), H1 as (? & ? & ? & ? & ? & SP' & P1' & P2' & PF').
        rewrite SP in SP'. injection SP' as; subst. replace n1 with k in * by congruence. replace n0 with n2 in * by congruence.
        replace v0 with v by congruence. rewrite nth_error_app1 by (rewrite repeat_length; lia).
        rewrite nth_error_repeat by lia. reflexivity.
      * destruct (H _ _ _ _ I H1 n H2) as [RG N]. rewrite nth_error_app2 by (rewrite repeat_length; lia).
        rewrite repeat_length. replace (Z.to_nat (n - k) - Z.to_nat (n2 - k + 1)) with (Z.to_nat (n - (n2 + 1))) by lia. exact N.
Qed.
Theorem C57_mode_frequency data i pre bl post m : skipn (i + 2) data = pre ++ bl :: post -> blank bl ->
  numbered 1 pre (Z.of_nat m + 1) ->
  exists b, read_band data i m = Ok b /\ List.length b = m /\
    forall l n1 n2 v n, In l pre -> says l n1 n2 v -> (n1 <= n <= n2)%Z -> nth_error b (Z.to_nat (n - 1)) = Some v.
Proof.
  intros E B N. destruct (numbered_listed _ _ _ N) as (fs & L & LN & _ & H). exists fs. split; [|split].
  - apply C57_stops_iff. exists pre, bl, post. repeat split; try assumption. lia.
  - lia.
  - intros l n1 n2 v n I SY R. exact (proj2 (H l n1 n2 v I SY n R)).
Qed.

(** ** Bands: one for each of the first q headers, in the order of the file. *)
Definition header_lines (data : list string) : list nat :=
  filter (fun i => contains frequency_header (nth i data "")) (seq 0 (List.length data)).
Lemma each_app {A B} (f : A -> res B) l1 l2 : each f (l1 ++ l2) =
  bind (each f l1) (fun a => bind (each f l2) (fun b => Ok (a ++ b))).
Proof.
  induction l1 as [|x l1 IH]; cbn [app each].
  - destruct (each f l2); reflexivity.
  - destruct (f x); cbn [bind]; try reflexivity. rewrite IH. destruct (each f l1); cbn [bind]; try reflexivity.
    destruct (each f l2); reflexivity.
Qed.
Lemma each_ok {A B} (f : A -> res B) l ys : each f l = Ok ys <-> Forall2 (fun x y => f x = Ok y) l ys.
Proof.
  split.
  - revert ys. induction l as [|x l IH]; cbn [each]; intros ys E.
    + injection E as <-. constructor.
    + destruct (f x) as [y| |] eqn:F; cbn [bind] in E; try discriminate.
      destruct (each f l) as [r| |]; cbn [bind] in E; try discriminate. injection E as <-. constructor; [exact F|now apply IH].
  - induction 1 as [|x y l ys F _ IH]; cbn [each]; [reflexivity|]. rewrite F. cbn [bind]. now rewrite IH.
Qed.
Lemma each_nth {A B} (f : A -> res B) l ys : each f l = Ok ys -> List.length ys = List.length l /\
  forall k x, nth_error l k = Some x -> exists y, nth_error ys k = Some y /\ f x = Ok y.
Proof.
  intros E. apply each_ok in E. induction E as [|x y l ys F _ [IH1 IH2]].
  - split; [reflexivity|]. intros [|k] x; discriminate.
  - split; [cbn [List.length]; now rewrite IH1|]. intros [|k] z; cbn [nth_error].
    + intros [= <-]. eauto.
    + apply IH2.
Qed.
Definition headers_from (i : nat) (rest : list string) : list nat :=
  filter (fun k => contains frequency_header (nth (k - i) rest "")) (seq i (List.length rest)).
Lemma filter_ext_in' {A} (f g : A -> bool) l : (forall x, In x l -> f x = g x) -> filter f l = filter g l.
Proof. apply filter_ext_in. Qed.
Lemma headers_cons i l r : headers_from i (l :: r) =
  if contains frequency_header l then i :: headers_from (S i) r else headers_from (S i) r.
Proof.
  unfold headers_from. cbn [List.length seq filter].
  assert (Q : filter (fun k => contains frequency_header (nth (k - i) (l :: r) "")) (seq (S i) (List.length r)) =
              filter (fun k => contains frequency_header (nth (k - S i) r "")) (seq (S i) (List.length r))).
  { apply filter_ext_in'. intros k I. apply in_seq in I. replace (k - i) with (S (k - S i)) by lia. reflexivity. }
  rewrite Q, Nat.sub_diag. reflexivity.
Qed.
Lemma set_phonons_firstn data m q : forall rest i c, c < q ->
  set_phonons_from i rest data m q c = each (fun i => read_band data i m) (firstn (q - c) (headers_from i rest)).
Proof.
  induction rest as [|l r IH]; intros i c H; cbn [set_phonons_from].
  - unfold headers_from. cbn [List.length seq filter]. now rewrite firstn_nil.
  - rewrite headers_cons. destruct (contains frequency_header l).
    + destruct (q - c) as [|k] eqn:K; [lia|]. cbn [firstn each].
      destruct (read_band data i m) as [b| |]; cbn [bind]; try reflexivity.
      destruct (Nat.eqb_spec (c + 1) q) as [E|E].
      * replace k with 0 by lia. reflexivity.
      * rewrite IH by lia. replace (q - (c + 1)) with k by lia. reflexivity.
    + now apply IH.
Qed.
Theorem C57_bands data m q : 1 <= q ->
  set_phonons data m q = each (fun i => read_band data i m) (firstn q (header_lines data)).
Proof.
  intros H. unfold set_phonons. rewrite set_phonons_firstn by lia. rewrite Nat.sub_0_r. f_equal. f_equal.
  unfold headers_from, header_lines. apply filter_ext_in'. intros k _. now rewrite Nat.sub_0_r.
Qed.
Theorem C57_band_order data m q bs : 1 <= q -> set_phonons data m q = Ok bs ->
  List.length bs = Nat.min q (List.length (header_lines data)) /\
  forall k i, k < q -> nth_error (header_lines data) k = Some i ->
    exists b, nth_error bs k = Some b /\ read_band data i m = Ok b /\ List.length b = m.
Proof.
  intros H E. rewrite C57_bands in E by exact H. destruct (each_nth _ _ _ E) as [L N]. split.
  - now rewrite L, firstn_length.
  - intros k i K NE. destruct (N k i) as (b & NB & RB).
    + rewrite <- NE. clear - K. revert q K. generalize (header_lines data). induction k as [|k IH]; intros [|x l] [|q] K; try lia; try reflexivity.
      cbn [firstn nth_error]. apply IH. lia.
    + exists b. repeat split; try assumption. apply C57_stops_iff in RB. now destruct RB as (? & ? & ? & ? & ? & ? & ?).
Qed.
(** One file with a table that never ends makes the whole reading never end. *)
Theorem C57_file_hangs data m q k i : 1 <= q -> k < q -> nth_error (header_lines data) k = Some i -> read_band data i m = Hangs ->
  (forall k' i', k' < k -> nth_error (header_lines data) k' = Some i' -> exists b, read_band data i' m = Ok b) ->
  set_phonons data m q = Hangs.
Proof.
  intros H K NE HG BEF. rewrite C57_bands by exact H. clear H.
  revert k q K NE BEF. generalize (header_lines data). induction l as [|x l IH]; intros [|k] [|q] K NE BEF; try lia; try discriminate.
  - cbn [nth_error] in NE. injection NE as ->. cbn [firstn each]. now rewrite HG.
  - cbn [firstn each]. destruct (BEF 0 x) as [b Eb]; [lia|reflexivity|]. rewrite Eb. cbn [bind].
    cbn [nth_error] in NE. rewrite (IH k q); [reflexivity|lia|exact NE|].
    intros k' i' L N'. apply (BEF (S k') i'); [lia|exact N'].
Qed.
(** *** Cases *)
Definition table_text : list string :=
  ["    MODES         EIGV          FREQUENCIES     IRREP  IR   INTENS    RAMAN";
   "             (HARTREE**2)   (CM**-1)     (THZ)             (KM/MOL)";
   "    1-   2   -0.1E-05     -215.1    -6.5  (E   )   A";
   "    3-   3    0.1E-05      210.5     6.3  (A   )   A";
   " ";
   "    4-   4    0.2E-05      300.5     9.3  (A   )   A";
   ""].
Ltac mode_says := do 5 eexists; repeat split; reflexivity.
Ltac text := vm_compute; reflexivity.
Example C57_instance : read_band table_text 0 3 =
  Ok [literal true "215" "1" 0; literal true "215" "1" 0; literal false "210" "5" 0].
Proof. text. Qed.
Example C57_instance_numbered : numbered 1 (firstn 2 (skipn 2 table_text)) (Z.of_nat 3 + 1).
Proof.
  cbn [firstn skipn table_text]. apply (numbered_cons 1 _ 2 (literal true "215" "1" 0)); [|lia|].
  - exists "1-", "2", "-0.1E-05", "-215.1". eexists. split; [text|]. split; [text|]. split; text.
  - apply (numbered_cons _ _ 3 (literal false "210" "5" 0)); [|lia|constructor].
    exists "3-", "3", "0.1E-05", "210.5". eexists. split; [text|]. split; [text|]. split; text.
Qed.
(** A fourth mode listed after a blank line is never reached. *)
Example C57_hangs_instance : read_band table_text 0 4 = Hangs.
Proof. text. Qed.
Example C57_too_many_instance : read_band table_text 0 2 = Raises "IndexError".
Proof. text. Qed.
Example C57_bands_instance : header_lines (table_text ++ table_text) = [0; 7].
Proof. text. Qed.

Print Assumptions C57_loop.
Print Assumptions C57_stops_iff.
Print Assumptions C57_hangs_iff.
Print Assumptions C57_too_many.
Print Assumptions C57_no_blank.
Print Assumptions C57_mode_frequency.
Print Assumptions C57_bands.
Print Assumptions C57_band_order.
Print Assumptions C57_file_hangs.
