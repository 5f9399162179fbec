(** 3x3 matrices, Moore-Penrose inverses, cofactors: specification and lemmas (C54). *)
From Coq Require Import Reals List Arith Lia Lra Psatz.
From Verif Require Import SymmetryModel TensorModel TensorProps QhaRunModel SeismicModel SeismicProps.
Import ListNotations.
Open Scope R_scope.

Definition mul3 (A B : mat3) : mat3 := fun i j => sum_3 (fun k => A i k * B k j).
Definition same3 (A B : mat3) : Prop := forall i j, (i < 3)%nat -> (j < 3)%nat -> A i j = B i j.
Definition tr (A : mat3) : mat3 := fun i j => A j i.
(** The four Penrose equations *)
Definition moore_penrose (A P : mat3) : Prop :=
  same3 (mul3 A (mul3 P A)) A /\ same3 (mul3 P (mul3 A P)) P /\
  same3 (mul3 A P) (tr (mul3 A P)) /\ same3 (mul3 P A) (tr (mul3 P A)).

Lemma same3_refl A : same3 A A. Proof. now intros i j _ _. Qed.
Lemma same3_sym A B : same3 A B -> same3 B A. Proof. intros H i j Hi Hj. symmetry. auto. Qed.
Lemma same3_trans A B D : same3 A B -> same3 B D -> same3 A D.
Proof. intros H K i j Hi Hj. rewrite H, K by assumption. reflexivity. Qed.
Lemma mul3_assoc A B D : same3 (mul3 A (mul3 B D)) (mul3 (mul3 A B) D).
Proof. intros i j _ _. unfold mul3, sum_3. ring. Qed.
Lemma mul3_same A A' B B' : same3 A A' -> same3 B B' -> same3 (mul3 A B) (mul3 A' B').
Proof. intros H K i j Hi Hj. unfold mul3, sum_3. rewrite !H, !K by lia. reflexivity. Qed.
Lemma tr_mul A B : same3 (tr (mul3 A B)) (mul3 (tr B) (tr A)).
Proof. intros i j _ _. unfold tr, mul3, sum_3. ring. Qed.
Lemma tr_same A B : same3 A B -> same3 (tr A) (tr B).
Proof. intros H i j Hi Hj. unfold tr. auto. Qed.
Lemma tr_tr A : same3 (tr (tr A)) A. Proof. now intros i j _ _. Qed.

Lemma penrose_left A P Q : moore_penrose A P -> moore_penrose A Q -> same3 (mul3 A P) (mul3 A Q).
Proof.
  intros (P1 & P2 & P3 & P4) (Q1 & Q2 & Q3 & Q4).
  (* AP = (AQA)P = (AQ)(AP) = (AQ)^T (AP)^T = (AP AQ)^T = (AQ)^T = AQ *)
  apply (same3_trans _ (mul3 (mul3 A Q) (mul3 A P))).
  { apply same3_sym. apply (same3_trans _ (mul3 (mul3 (mul3 A Q) A) P)); [apply mul3_assoc|].
    apply mul3_same; [|apply same3_refl]. apply (same3_trans _ (mul3 A (mul3 Q A))); [apply same3_sym, mul3_assoc|exact Q1]. }
  apply (same3_trans _ (mul3 (tr (mul3 A Q)) (tr (mul3 A P)))); [apply mul3_same; assumption|].
  apply (same3_trans _ (tr (mul3 (mul3 A P) (mul3 A Q)))); [apply same3_sym, tr_mul|].
  apply (same3_trans _ (tr (mul3 A Q))); [|apply same3_sym; exact Q3]. apply tr_same.
  apply (same3_trans _ (mul3 (mul3 (mul3 A P) A) Q)); [apply mul3_assoc|].
  apply mul3_same; [|apply same3_refl]. apply (same3_trans _ (mul3 A (mul3 P A))); [apply same3_sym, mul3_assoc|exact P1].
Qed.
Lemma penrose_transpose A P : moore_penrose A P -> moore_penrose (tr A) (tr P).
Proof.
  intros (P1 & P2 & P3 & P4). repeat split; intros i j Hi Hj.
  - pose proof (P1 j i Hj Hi) as E. unfold mul3, tr, sum_3 in *. lra.
  - pose proof (P2 j i Hj Hi) as E. unfold mul3, tr, sum_3 in *. lra.
  - pose proof (P4 j i Hj Hi) as E. unfold mul3, tr, sum_3 in *. lra.
  - pose proof (P3 j i Hj Hi) as E. unfold mul3, tr, sum_3 in *. lra.
Qed.
Lemma penrose_right A P Q : moore_penrose A P -> moore_penrose A Q -> same3 (mul3 P A) (mul3 Q A).
Proof.
  intros HP HQ i j Hi Hj.
  pose proof (penrose_left _ _ _ (penrose_transpose A P HP) (penrose_transpose A Q HQ) j i Hj Hi) as E.
  unfold mul3, tr, sum_3 in *. lra.
Qed.
(** There is at most one. *)
Lemma penrose_unique A P Q : moore_penrose A P -> moore_penrose A Q -> same3 P Q.
Proof.
  intros HP HQ. pose proof (penrose_left A P Q HP HQ) as L. pose proof (penrose_right A P Q HP HQ) as RR.
  destruct HP as (_ & P2 & _). destruct HQ as (_ & Q2 & _).
  apply (same3_trans _ (mul3 P (mul3 A P))); [now apply same3_sym|].
  apply (same3_trans _ (mul3 P (mul3 A Q))); [apply mul3_same; [apply same3_refl|exact L]|].
  apply (same3_trans _ (mul3 (mul3 P A) Q)); [apply mul3_assoc|].
  apply (same3_trans _ (mul3 (mul3 Q A) Q)); [apply mul3_same; [exact RR|apply same3_refl]|].
  apply (same3_trans _ (mul3 Q (mul3 A Q))); [apply same3_sym, mul3_assoc|exact Q2].
Qed.
Lemma penrose_same A A' P : same3 A A' -> moore_penrose A P -> moore_penrose A' P.
Proof.
  intros E (P1 & P2 & P3 & P4).
  repeat split; intros i j Hi Hj; unfold mul3, tr, sum_3 in *; rewrite <- !E by lia; auto.
Qed.
Lemma penrose_symmetric A P : same3 A (tr A) -> moore_penrose A P -> same3 P (tr P).
Proof.
  intros Y H. apply (penrose_unique A); [exact H|].
  apply (penrose_same (tr A)); [now apply same3_sym|]. now apply penrose_transpose.
Qed.
(** Kernel a line: the inverse is the inverse off that line. *)
Definition inverts_off (u : vec) (A P : mat3) : Prop :=
  (forall w i, (i < 3)%nat -> apply3 P (apply3 A w) i = w i - dot u w * u i) /\
  (forall i, (i < 3)%nat -> apply3 P u i = 0) /\ (forall i k, (i < 3)%nat -> (k < 3)%nat -> P i k = P k i).
Lemma apply_mul A B w i : apply3 A (apply3 B w) i = apply3 (mul3 A B) w i.
Proof. unfold apply3, mul3, sum_3. ring. Qed.
Lemma apply_same A B w i : same3 A B -> (i < 3)%nat -> apply3 A w i = apply3 B w i.
Proof. intros H Hi. unfold apply3, sum_3. rewrite !H by lia. reflexivity. Qed.
Lemma penrose_inverts_off A P u : same3 A (tr A) -> moore_penrose A P -> dot u u = 1 ->
  (forall i, (i < 3)%nat -> apply3 A u i = 0) ->
  (forall w, (forall i, (i < 3)%nat -> apply3 A w i = 0) -> exists c, forall i, (i < 3)%nat -> w i = c * u i) ->
  inverts_off u A P.
Proof.
  intros Y H N K SIMPLE. pose proof (penrose_symmetric A P Y H) as PS. destruct H as (P1 & P2 & P3 & P4).
  split; [|split; [|exact PS]].
  - intros w i Hi.
    destruct (SIMPLE (fun j => apply3 P (apply3 A w) j - w j)) as [c Hc].
    { intros j Hj. pose proof (apply_same _ _ w j P1 Hj) as E.
      transitivity (apply3 (mul3 A (mul3 P A)) w j - apply3 A w j); [unfold apply3, mul3, sum_3; ring|]. rewrite E. ring. }
    assert (D : dot u (fun j => apply3 P (apply3 A w) j) = 0).
    { assert (E : dot u (fun j => apply3 (mul3 P A) w j) = dot w (fun j => apply3 (tr (mul3 P A)) u j)).
      { unfold dot, apply3, tr, sum_3. ring. }
      assert (E2 : dot w (fun j => apply3 (tr (mul3 P A)) u j) = 0).
      { unfold dot. rewrite <- !(fun j Hj => apply_same (mul3 P A) (tr (mul3 P A)) u j P4 Hj) by lia.
        rewrite <- !apply_mul. unfold apply3 at 1 3 5. unfold sum_3. rewrite !K by lia. ring. }
      rewrite <- E2, <- E. unfold dot. now rewrite !apply_mul. }
    assert (CC : c = - dot u w).
    { pose proof (Hc 0%nat ltac:(lia)) as E0. pose proof (Hc 1%nat ltac:(lia)) as E1. pose proof (Hc 2%nat ltac:(lia)) as E2.
      unfold dot in *.
      assert (Q : u 0%nat * (apply3 P (apply3 A w) 0 - w 0%nat) + u 1%nat * (apply3 P (apply3 A w) 1 - w 1%nat) + u 2%nat * (apply3 P (apply3 A w) 2 - w 2%nat)
                  = c * (u 0%nat * u 0%nat + u 1%nat * u 1%nat + u 2%nat * u 2%nat)) by (rewrite E0, E1, E2; ring).
      rewrite N in Q. lra. }
    specialize (Hc i Hi). subst c. lra.
  - intros i Hi. rewrite <- (apply_same _ _ u i P2 Hi). rewrite <- apply_mul.
    assert (Z : forall j, (j < 3)%nat -> apply3 (mul3 A P) u j = 0).
    { intros j Hj. rewrite (apply_same _ _ u j P3 Hj). rewrite (apply_same _ _ u j (tr_mul A P) Hj), <- apply_mul.
      unfold apply3 at 1. unfold sum_3.
      rewrite <- !(fun j Hj => apply_same A (tr A) u j Y Hj) by lia. rewrite !K by lia. ring. }
    unfold apply3 at 1. unfold sum_3. rewrite !Z by lia. ring.
Qed.

(** ** C54 *)
(** Cofactor: (-1)^(i+j) times the minor left by removing row i and column j. *)
Definition minor (A : mat3) (i j : nat) : R :=
  let r1 := if (i =? 0)%nat then 1%nat else 0%nat in let r2 := if (i =? 2)%nat then 1%nat else 2%nat in
  let c1 := if (j =? 0)%nat then 1%nat else 0%nat in let c2 := if (j =? 2)%nat then 1%nat else 2%nat in
  A r1 c1 * A r2 c2 - A r1 c2 * A r2 c1.
Definition cofactor_textbook (A : mat3) : mat3 := fun i j => (-1) ^ (i + j) * minor A i j.
Definition inverts (inv : mat3 -> mat3) (A : mat3) : Prop :=
  det A <> 0 -> same3 (mul3 A (inv A)) (fun i j => delta i j).
Lemma textbook_adjugate A i j : (i < 3)%nat -> (j < 3)%nat ->
  mul3 A (tr (cofactor_textbook A)) i j = det A * delta i j /\ mul3 (tr (cofactor_textbook A)) A i j = det A * delta i j.
Proof.
  intros Hi Hj. unfold mul3, sum_3, tr, cofactor_textbook, minor, det, delta.
  cases3; cbn [Nat.eqb Nat.add pow]; split; ring.
Qed.
(** Both branches give the textbook cofactors whenever the library inverse is a
    right inverse. *)
Theorem C54_textbook inv A i j : inverts inv A -> (i < 3)%nat -> (j < 3)%nat ->
  cofactor inv A i j = cofactor_textbook A i j.
Proof.
  intros I Hi Hj. unfold cofactor. destruct (Req_EM_T (det A) 0) as [Z|NZ].
  - unfold cofactor_textbook, minor. cases3; cbn [Nat.eqb Nat.add pow]; ring.
  - specialize (I NZ).
    (* (cof^T) (A inv) = cof^T, and cof^T A = det *)
    assert (E : mul3 (tr (cofactor_textbook A)) (mul3 A (inv A)) j i = cofactor_textbook A i j).
    { unfold mul3 at 1, sum_3. rewrite !I by lia. unfold tr, delta. cases3; cbn [Nat.eqb]; ring. }
    rewrite (mul3_assoc _ _ _ j i Hj Hi) in E. unfold mul3 at 1, sum_3 in E.
    rewrite !(fun a b Ha Hb => proj2 (textbook_adjugate A a b Ha Hb)) in E by lia.
    rewrite <- E. unfold delta. cases3; cbn [Nat.eqb]; ring.
Qed.
Theorem C54_adjugate inv A i j : inverts inv A -> (i < 3)%nat -> (j < 3)%nat ->
  mul3 A (tr (cofactor inv A)) i j = det A * delta i j /\ mul3 (tr (cofactor inv A)) A i j = det A * delta i j.
Proof.
  intros I Hi Hj. rewrite <- (proj1 (textbook_adjugate A i j Hi Hj)) at 1. rewrite <- (proj2 (textbook_adjugate A i j Hi Hj)).
  unfold mul3, sum_3, tr. rewrite !(C54_textbook inv A) by (assumption || lia). auto.
Qed.
(** Independent of the branch: a cofactor never depends on which side of the test
    an exactly or nearly singular matrix falls. *)
Theorem C54_branch_free inv inv' A A' i j : inverts inv A -> inverts inv' A' -> same3 A A' ->
  (i < 3)%nat -> (j < 3)%nat -> cofactor inv A i j = cofactor inv' A' i j.
Proof.
  intros I I' E Hi Hj. rewrite !C54_textbook by assumption. unfold cofactor_textbook, minor. f_equal.
  cases3; cbn [Nat.eqb]; rewrite !E by lia; reflexivity.
Qed.
Example C54_regular : let A : mat3 := fun i j => if (i =? j)%nat then 2 else 0 in
  let inv : mat3 -> mat3 := fun _ i j => if (i =? j)%nat then 1 / 2 else 0 in
  inverts inv A /\ det A = 8 /\ cofactor inv A 1%nat 1%nat = 4.
Proof.
  intros A inv. assert (I : inverts inv A).
  { intros _ i j Hi Hj. unfold mul3, sum_3, A, inv, delta. cases3; cbn [Nat.eqb]; field. }
  split; [exact I|]. split; [unfold det, A; cbn [Nat.eqb]; ring|].
  rewrite C54_textbook by (exact I || lia). unfold cofactor_textbook, minor, A; cbn [Nat.eqb Nat.add pow]. ring.
Qed.
Example C54_singular : let A : mat3 := fun i j => if (i =? j)%nat then (if (i =? 2)%nat then 0 else 1) else 0 in
  forall inv, inverts inv A /\ det A = 0 /\ cofactor inv A 2%nat 2%nat = 1.
Proof.
  intros A inv. assert (Z : det A = 0) by (unfold det, A; cbn [Nat.eqb]; ring).
  assert (I : inverts inv A) by (intros N; contradiction).
  split; [exact I|]. split; [exact Z|].
  rewrite C54_textbook by (exact I || lia). unfold cofactor_textbook, minor, A; cbn [Nat.eqb Nat.add pow]. ring.
Qed.
Print Assumptions C54_textbook.
Print Assumptions C54_adjugate.
Print Assumptions C54_branch_free.
