(** Specification of the crystal-system labels and what each of them tests (C26). *)
From Coq Require Import Reals ZArith List Lra Lia Bool Arith.
From Verif Require Import StatMechModel SymmetryModel.
Import ListNotations.
Open Scope R_scope.

(** ** Specification, in crystallographic (1..6) numbering. *)
Definition C (m : mat6) (i j : nat) : R := m (i - 1)%nat (j - 1)%nat.
Definition approx (a b : R) : Prop := Rabs (a - b) <= 1 / 1000.
Definition negligible (a : R) : Prop := Rabs a <= 1 / 1000.
Definition symmetric (m : mat6) : Prop := forall i j, (i < 6)%nat -> (j < 6)%nat -> m i j = m j i.
Definition all_negligible (m : mat6) (l : list (nat * nat)) : Prop :=
  Forall (fun k => negligible (C m (fst k) (snd k))) l.
(** Relations of the diagonal classes that share C11 = C22, C13 = C23, C44 = C55. *)
Definition uniaxial (m : mat6) : Prop :=
  approx (C m 1 1) (C m 2 2) /\ approx (C m 1 3) (C m 2 3) /\ approx (C m 4 4) (C m 5 5).
Definition orthotropic_zeros : list (nat * nat) :=
  [(1,4); (1,5); (1,6); (2,4); (2,5); (2,6); (3,4); (3,5); (3,6); (4,5); (4,6); (5,6)]%nat.
(** What a label guarantees about a symmetric matrix. *)
Definition enforced (s : system) (m : mat6) : Prop :=
  match s with
  | Cubic => all_negligible m orthotropic_zeros /\
      (approx (C m 1 1) (C m 2 2) /\ approx (C m 1 1) (C m 3 3) /\ approx (C m 2 2) (C m 3 3)) /\
      (approx (C m 1 2) (C m 1 3) /\ approx (C m 1 2) (C m 2 3) /\ approx (C m 1 3) (C m 2 3)) /\
      (approx (C m 4 4) (C m 5 5) /\ approx (C m 4 4) (C m 6 6) /\ approx (C m 5 5) (C m 6 6))
  | Hexagonal => uniaxial m /\ all_negligible m [(1,6); (2,4); (2,6); (3,4); (3,5); (3,6); (4,5); (4,6); (5,6)]%nat /\
      approx (C m 6 6) ((C m 1 1 - C m 1 2) / 2)
  | TrigonalHigh => uniaxial m /\ all_negligible m [(1,6); (2,4); (2,6); (3,4); (3,5); (3,6); (4,5); (4,6); (5,6)]%nat
  | TrigonalLow => uniaxial m /\ all_negligible m [(1,6); (2,6); (3,4); (3,5); (3,6); (4,5)]%nat /\
      approx (C m 1 4) (C m 5 6)
  | TetragonalHigh => uniaxial m /\ all_negligible m orthotropic_zeros
  | TetragonalLow => uniaxial m /\ all_negligible m [(1,4); (1,5); (2,4); (2,5); (3,4); (3,5); (3,6); (4,5); (4,6); (5,6)]%nat
  | Orthorhombic => all_negligible m orthotropic_zeros
  | Monoclinic => all_negligible m [(1,4); (1,6); (2,4); (2,6); (3,4); (3,6); (4,5); (5,6)]%nat
  | Triclinic => True
  end.

Lemma small_spec x : small x = true <-> Rabs x <= 1 / 1000.
Proof. unfold small, Rle_b, tol. destruct (Rle_dec (Rabs x) (1 / 1000)); split; intros; auto; try discriminate; contradiction. Qed.
Lemma small_not x : small x = false <-> 1 / 1000 < Rabs x.
Proof.
  split; intros H.
  - apply Rnot_le_lt. intros N. apply small_spec in N. congruence.
  - destruct (small x) eqn:E; [apply small_spec in E; lra|reflexivity].
Qed.

(** The list of comparisons performed for each name (kernel computation). *)
Definition zero_keys (s : system) := keys_of s 0%Z.
Definition equal_keys (s : system) := flat_map (fun l => pairs (keys_of s l)) (map Z.of_nat (seq 1 21)).
Lemma forallb_flat {A B} (f : B -> bool) (g : A -> list B) l : forallb (fun a => forallb f (g a)) l = forallb f (flat_map g l).
Proof. induction l; simpl; [reflexivity|]. now rewrite forallb_app, IHl. Qed.
Lemma run_check_split m s :
  run_check m s = (forallb (fun k => small (get m k)) (zero_keys s) &&
                  forallb (fun p => small (get m (fst p) - get m (snd p))) (equal_keys s) &&
                  match s with Hexagonal => small (m 5%nat 5%nat - (m 0%nat 0%nat - m 0%nat 1%nat) / 2) | _ => true end)%bool.
Proof.
  unfold run_check. f_equal. change labels with (0%Z :: map Z.of_nat (seq 1 21)). cbn [forallb].
  f_equal. unfold equal_keys. rewrite <- forallb_flat.
  assert (E : forall l, Forall (fun z => z <> 0%Z) l ->
    forallb (label_ok m s) l = forallb (fun a => forallb (fun p => small (get m (fst p) - get m (snd p))) (pairs (keys_of s a))) l).
  { induction 1; simpl; [reflexivity|]. rewrite IHForall. f_equal. unfold label_ok.
    destruct (Z.eqb_spec x 0); [contradiction|reflexivity]. }
  apply E. repeat constructor; lia.
Qed.
Lemma forallb_and {A} (f : A -> bool) a l : forallb f (a :: l) = true <-> f a = true /\ forallb f l = true.
Proof. simpl. apply andb_true_iff. Qed.

Lemma sym_swap m : symmetric m -> forall i j, (i < 6)%nat -> (j < 6)%nat -> m i j = m j i.
Proof. auto. Qed.

Lemma negl_minus_self (x : R) : Rabs (x - x) <= 1 / 1000.
Proof. rewrite Rminus_diag_eq, Rabs_R0 by reflexivity. lra. Qed.
Ltac orient_in S H :=
  rewrite ?(S 1%nat 0%nat), ?(S 2%nat 0%nat), ?(S 3%nat 0%nat), ?(S 4%nat 0%nat), ?(S 5%nat 0%nat),
          ?(S 2%nat 1%nat), ?(S 3%nat 1%nat), ?(S 4%nat 1%nat), ?(S 5%nat 1%nat),
          ?(S 3%nat 2%nat), ?(S 4%nat 2%nat), ?(S 5%nat 2%nat),
          ?(S 4%nat 3%nat), ?(S 5%nat 3%nat), ?(S 5%nat 4%nat) in H by lia.
Ltac orient S :=
  rewrite ?(S 1%nat 0%nat), ?(S 2%nat 0%nat), ?(S 3%nat 0%nat), ?(S 4%nat 0%nat), ?(S 5%nat 0%nat),
          ?(S 2%nat 1%nat), ?(S 3%nat 1%nat), ?(S 4%nat 1%nat), ?(S 5%nat 1%nat),
          ?(S 3%nat 2%nat), ?(S 4%nat 2%nat), ?(S 5%nat 2%nat),
          ?(S 4%nat 3%nat), ?(S 5%nat 3%nat), ?(S 5%nat 4%nat) by lia.
Ltac conj_all H := repeat match type of H with _ /\ _ => let H1 := fresh "K" in destruct H as (H1 & H) end.
Ltac open_check m s H :=
  rewrite run_check_split, !andb_true_iff in H;
  let z := eval vm_compute in (zero_keys s) in change (zero_keys s) with z in H;
  let e := eval vm_compute in (equal_keys s) in change (equal_keys s) with e in H;
  unfold get in H; cbn [forallb fst snd] in H; rewrite ?andb_true_iff, ?small_spec in H.
Ltac open_goal m s :=
  rewrite run_check_split, !andb_true_iff;
  let z := eval vm_compute in (zero_keys s) in change (zero_keys s) with z;
  let e := eval vm_compute in (equal_keys s) in change (equal_keys s) with e;
  unfold get; cbn [forallb fst snd]; rewrite ?andb_true_iff, ?small_spec.
Ltac open_enf := unfold enforced, uniaxial, all_negligible, orthotropic_zeros, approx, negligible, C in *; cbn [fst snd Nat.sub] in *.

Ltac to_spec s S H := open_check tt s H; orient_in S H; decompose [and] H; clear H; open_enf;
  repeat apply conj; repeat apply Forall_cons; try apply Forall_nil; cbn [fst snd Nat.sub]; try exact I; assumption.
Ltac from_spec s S H := open_enf; open_goal tt s; orient S; apply (conj I) in H; decompose [and] H; clear H;
  repeat match goal with F : Forall _ (_ :: _) |- _ => apply Forall_cons_iff in F as (? & F); cbn [fst snd Nat.sub] in * end;
  repeat apply conj; first [exact eq_refl | assumption | apply negl_minus_self | rewrite Rabs_minus_sym; assumption].
Theorem C26_label_means s m : symmetric m -> run_check m s = true <-> enforced s m.
Proof.
  intros S. unfold symmetric in S. destruct s; split; intros H.
  - to_spec Cubic S H.
  - from_spec Cubic S H.
  - to_spec Hexagonal S H.
  - from_spec Hexagonal S H.
  - to_spec TrigonalHigh S H.
  - from_spec TrigonalHigh S H.
  - to_spec TrigonalLow S H.
  - from_spec TrigonalLow S H.
  - to_spec TetragonalHigh S H.
  - from_spec TetragonalHigh S H.
  - to_spec TetragonalLow S H.
  - from_spec TetragonalLow S H.
  - to_spec Orthorhombic S H.
  - from_spec Orthorhombic S H.
  - to_spec Monoclinic S H.
  - from_spec Monoclinic S H.
  - to_spec Triclinic S H.
  - from_spec Triclinic S H.
Qed.

