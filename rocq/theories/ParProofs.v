From Coq Require Import List Arith Lia Bool.
From Verif Require Import ParModel.
Import ListNotations.

Section Par.
Variable A : Type.
Variable add : A -> A -> A.
Notation op := (op A). Notation memory := (memory A). Notation pool := (pool A).

Definition row (o : op) : nat := match o with AddTo r _ _ => r | SetTo r _ _ => r end.
Definition col (o : op) : nat := match o with AddTo _ c _ => c | SetTo _ c _ => c end.

Lemma write_same (m : memory) r c v : write m r c v r c = v.
Proof. unfold write. now rewrite !Nat.eqb_refl. Qed.
Lemma write_row (m : memory) r c v r' c' : r' <> r -> write m r c v r' c' = m r' c'.
Proof. intros H. unfold write. apply Nat.eqb_neq in H. now rewrite H. Qed.

(** Effect on one row only depends on that row. *)
Lemma exec_row l : forall (m m2 : memory) i,
  (forall o, In o l -> row o = i) -> (forall c, m i c = m2 i c) ->
  forall c, exec add l m i c = exec add l m2 i c.
Proof.
  induction l as [|o l IH]; intros m m2 i R E c; simpl; [apply E|].
  assert (Ro : row o = i) by (apply R; left; reflexivity).
  assert (Rl : forall o, In o l -> row o = i) by (intros; apply R; right; assumption).
  destruct o as [r c0 v|r c0 v]; simpl in Ro; subst r; apply IH; auto;
  intros c'; unfold write; rewrite ?E; reflexivity.
Qed.

Lemma exec_other l : forall (m : memory) i,
  (forall o, In o l -> row o <> i) -> forall c, exec add l m i c = m i c.
Proof.
  induction l as [|o l IH]; intros m i R c; simpl; [reflexivity|].
  assert (Ro : row o <> i) by (apply R; left; reflexivity).
  assert (Rl : forall o, In o l -> row o <> i) by (intros; apply R; right; assumption).
  destruct o as [r c0 v|r c0 v]; simpl in Ro; rewrite IH by assumption; apply write_row; auto.
Qed.

Lemma exec_app l l' m : exec add (l ++ l') m = exec add l' (exec add l m).
Proof. revert m; induction l as [|[r c v|r c v] l IH]; intros; simpl; auto. Qed.

(** Threads only hold operations on their own row and a register is the
    current contents of the cell about to be updated. *)
Definition wf (nt : nat) (m : memory) (p : pool) : Prop :=
  forall i, i < nt ->
    (forall o, In o (todo (p i)) -> row o = i) /\
    (forall x, reg (p i) = Some x ->
       match todo (p i) with AddTo r c _ :: _ => x = m r c | _ => True end).

Lemma step_wf nt i m p m' p' :
  i < nt -> wf nt m p -> step add i (m, p) (m', p') ->
  wf nt m' p' /\
  (forall i', i' < nt -> forall c, exec add (todo (p' i')) m' i' c = exec add (todo (p i')) m i' c) /\
  (forall i', nt <= i' -> forall c, m' i' c = m i' c).
Proof.
  intros Hi W S.
  inversion S as [m1 p1 r c v t E E1 E2 | m1 p1 r c v t x E E1 E2 | m1 p1 r c v t g E E1 E2]; subst.
  - split; [|split].
    + intros i' Hi'. unfold set_thread. destruct (Nat.eqb_spec i' i); [|auto].
      subst i'. destruct (W i Hi) as [W1 W2]. rewrite E in W1. simpl in *. split; [exact W1|].
      intros x Ex. injection Ex as <-. reflexivity.
    + intros i' Hi' c'. unfold set_thread. destruct (Nat.eqb_spec i' i); [|reflexivity].
      subst i'. rewrite E. reflexivity.
    + reflexivity.
  - destruct (W i Hi) as [W1 W2]. rewrite E in W1, W2. simpl in W1, W2.
    assert (Hr : r = i) by (exact (W1 _ (or_introl eq_refl))). subst r.
    specialize (W2 _ eq_refl). subst x.
    split; [|split].
    + intros i' Hi'. unfold set_thread. destruct (Nat.eqb_spec i' i).
      * subst i'. simpl. split; [intros; apply W1; auto|discriminate].
      * destruct (W i' Hi') as [V1 V2]. split; [exact V1|]. intros x Ex. specialize (V2 x Ex).
        destruct (todo (p i')) as [|[r' c' v'|r' c' v'] t']; auto.
        assert (r' = i') by (exact (V1 _ (or_introl eq_refl))). subst r'.
        rewrite write_row; auto.
    + intros i' Hi' c'. unfold set_thread. destruct (Nat.eqb_spec i' i).
      * subst i'. rewrite E. reflexivity.
      * apply exec_row. { apply (W i' Hi'). } intros c1. apply write_row; auto.
    + intros i' Hi' c'. apply write_row. lia.
  - destruct (W i Hi) as [W1 W2]. rewrite E in W1, W2. simpl in W1, W2.
    assert (Hr : r = i) by (exact (W1 _ (or_introl eq_refl))). subst r.
    split; [|split].
    + intros i' Hi'. unfold set_thread. destruct (Nat.eqb_spec i' i).
      * subst i'. simpl. split; [intros; apply W1; auto|discriminate].
      * destruct (W i' Hi') as [V1 V2]. split; [exact V1|]. intros x Ex. specialize (V2 x Ex).
        destruct (todo (p i')) as [|[r' c' v'|r' c' v'] t']; auto.
        assert (r' = i') by (exact (V1 _ (or_introl eq_refl))). subst r'.
        rewrite write_row; auto.
    + intros i' Hi' c'. unfold set_thread. destruct (Nat.eqb_spec i' i).
      * subst i'. rewrite E. reflexivity.
      * apply exec_row. { apply (W i' Hi'). } intros c1. apply write_row; auto.
    + intros i' Hi' c'. apply write_row. lia.
Qed.

Lemma run_spec nt s m' : run add nt s m' -> forall m p, s = (m, p) -> wf nt m p ->
  (forall i c, i < nt -> m' i c = exec add (todo (p i)) m i c) /\
  (forall i c, nt <= i -> m' i c = m i c).
Proof.
  induction 1 as [m0 p0 D | i s s' m' Hi S R IH]; intros m p Es W.
  - injection Es as -> ->. split; [|reflexivity]. intros i c Hi. rewrite (D i Hi). reflexivity.
  - subst s. destruct s' as [m1 p1].
    destruct (step_wf nt i m p m1 p1 Hi W S) as (W1 & X1 & X2).
    destruct (IH m1 p1 eq_refl W1) as [Y1 Y2]. split.
    + intros i' c Hi'. rewrite Y1, X1 by assumption. reflexivity.
    + intros i' c Hi'. rewrite Y2, X2 by assumption. reflexivity.
Qed.

Lemma start_wf nt m prog : (forall i o, i < nt -> In o (prog i) -> row o = i) ->
  wf nt m (start prog).
Proof. intros R i Hi. simpl. split; [auto|discriminate]. Qed.

(** Sequential loop [for i in range(nt)]. *)
Lemma exec_seq_row nt (prog : nat -> list op) m :
  (forall i o, i < nt -> In o (prog i) -> row o = i) ->
  forall i c, i < nt -> exec add (flat_map prog (seq 0 nt)) m i c = exec add (prog i) m i c.
Proof.
  induction nt as [|nt IH]; intros R i c Hi; [lia|].
  rewrite seq_S, flat_map_app, exec_app. simpl. rewrite app_nil_r.
  destruct (Nat.eq_dec i nt) as [->|Ne].
  - apply exec_row. { intros o I. apply R; auto. } intros c'.
    apply exec_other. intros o I. apply in_flat_map in I as (j & Hj & I).
    apply in_seq in Hj. rewrite (R j o) by (auto; lia). lia.
  - rewrite exec_other.
    + apply IH; [|lia]. intros; apply R; auto.
    + intros o I. rewrite (R nt o) by auto. lia.
Qed.

Lemma exec_seq_out nt (prog : nat -> list op) m :
  (forall i o, i < nt -> In o (prog i) -> row o = i) ->
  forall i c, nt <= i -> exec add (flat_map prog (seq 0 nt)) m i c = m i c.
Proof.
  intros R i c Hi. apply exec_other. intros o I.
  apply in_flat_map in I as (j & Hj & I). apply in_seq in Hj. rewrite (R j o) by (auto; lia). lia.
Qed.

(** Every schedule gives the sequential result. *)
Lemma schedule_independent nt prog m0 m' :
  (forall i o, i < nt -> In o (prog i) -> row o = i) ->
  run add nt (m0, start prog) m' ->
  forall i c, m' i c = exec add (flat_map prog (seq 0 nt)) m0 i c.
Proof.
  intros R H i c. destruct (run_spec _ _ _ H _ _ eq_refl (start_wf nt m0 prog R)) as [X Y].
  destruct (lt_dec i nt).
  - rewrite X, exec_seq_row by auto. reflexivity.
  - rewrite Y, exec_seq_out by (auto; lia). reflexivity.
Qed.

Lemma run_ext nt p1 p2 m1 m2 : (forall j, p1 j = p2 j) -> run add nt (m1, p1) m2 -> run add nt (m1, p2) m2.
Proof.
  intros Ep Hr. remember (m1, p1) as s eqn:Es. revert m1 p1 p2 Ep Es.
      induction Hr as [mm pp D | j s1 s2 mm Hj S R IHr]; intros m1 p1 p2 Ep Es.
      - injection Es as -> ->. constructor. intros j Hj. rewrite <- Ep. auto.
      - subst s1. inversion S; subst.
        + eapply run_step; [exact Hj| |].
          { apply step_load with (r := r) (c := c) (v := v) (t := t). rewrite <- Ep. assumption. }
          eapply IHr; [|reflexivity]. intros j'. unfold set_thread. destruct (j' =? j); auto.
        + eapply run_step; [exact Hj| |].
          { apply step_store with (r := r) (c := c) (v := v) (t := t) (x := x). rewrite <- Ep. assumption. }
          eapply IHr; [|reflexivity]. intros j'. unfold set_thread. destruct (j' =? j); auto.
        + eapply run_step; [exact Hj| |].
          { apply step_set with (r := r) (c := c) (v := v) (t := t) (g := g). rewrite <- Ep. assumption. }
          eapply IHr; [|reflexivity]. intros j'. unfold set_thread. destruct (j' =? j); auto.
Qed.

(** Some schedule exists (so the previous statement is not vacuous). *)
Lemma thread_run nt i m p :
  i < nt -> reg (p i) = None ->
  forall m', run add nt (exec add (todo (p i)) m, set_thread p i {| todo := []; reg := None |}) m' ->
  run add nt (m, p) m'.
Proof.
  intros Hi. destruct (p i) as [l g] eqn:E. simpl. intros ->.
  revert m p E. induction l as [|o l IH]; intros m p E m' H; simpl in H.
  - eapply run_ext; [|exact H]. intros j. unfold set_thread. destruct (Nat.eqb_spec j i); subst; auto.
  - destruct o as [r c v|r c v].
    + eapply run_step; [exact Hi|eapply step_load; exact E|].
      eapply run_step; [exact Hi|eapply step_store; unfold set_thread; rewrite Nat.eqb_refl; reflexivity|].
      eapply IH; [unfold set_thread; rewrite Nat.eqb_refl; reflexivity|].
      eapply run_ext; [|exact H]. intros j. unfold set_thread. destruct (Nat.eqb_spec j i); auto.
    + eapply run_step; [exact Hi|eapply step_set; exact E|].
      eapply IH; [unfold set_thread; rewrite Nat.eqb_refl; reflexivity|].
      eapply run_ext; [|exact H]. intros j. unfold set_thread. destruct (Nat.eqb_spec j i); auto.
Qed.

Lemma run_exists nt prog m0 : exists m', run add nt (m0, start prog) m'.
Proof.
  assert (G : forall k m p, k <= nt -> (forall i, reg (p i) = None) ->
            (forall i, k <= i < nt -> todo (p i) = []) -> exists m', run add nt (m, p) m').
  { induction k as [|k IH]; intros m p Hk Hr Ht.
    - exists m. constructor. intros; apply Ht; lia.
    - destruct (IH (exec add (todo (p k)) m) (set_thread p k {| todo := []; reg := None |})) as [m' R].
      + lia.
      + intros i. unfold set_thread. destruct (i =? k); auto.
      + intros i Hi. unfold set_thread. destruct (Nat.eqb_spec i k); auto. apply Ht. lia.
      + exists m'. eapply thread_run; eauto. }
  apply (G nt); auto. intros; lia.
Qed.
End Par.
