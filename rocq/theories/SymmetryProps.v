(** Properties C26 and C27. *)
From Coq Require Import Reals ZArith List Lra Lia Bool Arith.
From Verif Require Import StatMechModel SymmetryModel SymmetryProofs.
Import ListNotations.
Open Scope R_scope.

Lemma find_Some_iff {A} (f : A -> bool) l x : find f l = Some x <->
  exists l1 l2, l = l1 ++ x :: l2 /\ f x = true /\ forall y, In y l1 -> f y = false.
Proof.
  split.
  - induction l as [|a l IH]; simpl; [discriminate|]. destruct (f a) eqn:E.
    + intros Q. injection Q as <-. exists [], l. split; [reflexivity|split; [exact E|intros y []]].
    + intros Q. destruct (IH Q) as (l1 & l2 & -> & Fx & N). exists (a :: l1), l2. split; [reflexivity|split; [exact Fx|]].
      intros y [<-|I]; auto.
  - intros (l1 & l2 & -> & Fx & N). induction l1 as [|a l1 IH]; simpl.
    + now rewrite Fx.
    + rewrite (N a) by now left. apply IH. intros y I. apply N. now right.
Qed.

(** The published order of the names. *)
Definition rank (s : system) : nat :=
  match s with Cubic => 0 | Hexagonal => 1 | TrigonalHigh => 2 | TrigonalLow => 3 | TetragonalHigh => 4
             | TetragonalLow => 5 | Orthorhombic => 6 | Monoclinic => 7 | Triclinic => 8 end.
(** A name is returned exactly when the matrix satisfies what it stands for and
    nothing listed before it. *)
Theorem C26_first_match m s :
  symmetric m ->
  check_symmetry m = Some s <-> enforced s m /\ forall s', (rank s' < rank s)%nat -> ~ enforced s' m.
Proof.
  intros S. unfold check_symmetry. rewrite find_Some_iff. rewrite <- (C26_label_means s m S). split.
  - intros (l1 & l2 & E & F & N). split; [exact F|]. intros s' R En.
    apply (C26_label_means s' m S) in En. rewrite N in En; [discriminate|].
    assert (L : forall l1 l2 a, systems = l1 ++ a :: l2 -> forall b, (rank b < rank a)%nat -> In b l1).
    { clear. intros l1 l2 a E b R. unfold systems in E.
      do 9 (destruct l1 as [|? l1]; [injection E as <- <-; destruct b; simpl in *; auto 12; lia|injection E as <- E]).
      destruct l1; discriminate. }
    eapply L; eauto.
  - intros (F & N).
    assert (N' : forall s', (rank s' < rank s)%nat -> run_check m s' = false).
    { intros s' R. destruct (run_check m s') eqn:E; [|reflexivity]. apply (C26_label_means s' m S) in E. now apply N in E. }
    exists (firstn (rank s) systems), (skipn (rank s + 1) systems).
    split; [destruct s; reflexivity|]. split; [exact F|].
    intros y I. apply N'. destruct s; simpl in I; simpl; intuition (subst; simpl; lia).
Qed.
(** Every symmetric matrix gets a name. *)
Theorem C26_total m : symmetric m -> exists s, check_symmetry m = Some s.
Proof.
  intros S. unfold check_symmetry. destruct (find (run_check m) systems) as [s|] eqn:E; [eauto|].
  pose proof (find_none _ _ E Triclinic) as N.
  rewrite (proj2 (C26_label_means Triclinic m S) I) in N. discriminate N. simpl. auto 10.
Qed.
(** A matrix with different C12 and C21 gets none: the caller raises. *)
Theorem C26_unsymmetric m : ~ approx (C m 1 2) (C m 2 1) -> check_symmetry m = None.
Proof.
  intros A. unfold check_symmetry. destruct (find (run_check m) systems) as [s|] eqn:E; [|reflexivity].
  exfalso. apply A. apply find_some in E as (_ & E). rewrite run_check_split, !andb_true_iff in E.
  destruct E as ((_ & E) & _). unfold approx, C. cbn [Nat.sub].
  rewrite forallb_forall in E. apply small_spec. apply (E ((0, 1), (1, 0))%nat).
  destruct s; vm_compute; tauto.
Qed.
(** 'tetragonal_high' is never returned. *)
Theorem C26_tetragonal_high_never m : symmetric m -> check_symmetry m <> Some TetragonalHigh.
Proof.
  intros S E. apply (C26_first_match m _ S) in E as (F & N).
  apply (N TrigonalHigh); [simpl; lia|]. destruct F as (U & Z). split; [exact U|].
  unfold all_negligible, orthotropic_zeros in *. rewrite Forall_forall in *. intros k Hk. apply Z.
  simpl in *. tauto.
Qed.

(** ** C27: matrices of each crystal class (Nye), all constants arbitrary. *)
Definition of_rows (l : list (list R)) : mat6 := fun i j => nth j (nth i l []) 0.
Definition cubic_m c11 c12 c44 := of_rows
  [[c11; c12; c12; 0; 0; 0]; [c12; c11; c12; 0; 0; 0]; [c12; c12; c11; 0; 0; 0];
   [0; 0; 0; c44; 0; 0]; [0; 0; 0; 0; c44; 0]; [0; 0; 0; 0; 0; c44]].
Definition hexagonal_m c11 c12 c13 c33 c44 := of_rows
  [[c11; c12; c13; 0; 0; 0]; [c12; c11; c13; 0; 0; 0]; [c13; c13; c33; 0; 0; 0];
   [0; 0; 0; c44; 0; 0]; [0; 0; 0; 0; c44; 0]; [0; 0; 0; 0; 0; (c11 - c12) / 2]].
(** Classes 32, 3m, -3m. *)
Definition trigonal_high_m c11 c12 c13 c14 c33 c44 := of_rows
  [[c11; c12; c13; c14; 0; 0]; [c12; c11; c13; - c14; 0; 0]; [c13; c13; c33; 0; 0; 0];
   [c14; - c14; 0; c44; 0; 0]; [0; 0; 0; 0; c44; c14]; [0; 0; 0; 0; c14; (c11 - c12) / 2]].
(** Classes 3, -3. *)
Definition trigonal_low_m c11 c12 c13 c14 c15 c33 c44 := of_rows
  [[c11; c12; c13; c14; c15; 0]; [c12; c11; c13; - c14; - c15; 0]; [c13; c13; c33; 0; 0; 0];
   [c14; - c14; 0; c44; 0; - c15]; [c15; - c15; 0; 0; c44; c14]; [0; 0; 0; - c15; c14; (c11 - c12) / 2]].
(** Classes 4mm, -42m, 422, 4/mmm. *)
Definition tetragonal_high_m c11 c12 c13 c33 c44 c66 := of_rows
  [[c11; c12; c13; 0; 0; 0]; [c12; c11; c13; 0; 0; 0]; [c13; c13; c33; 0; 0; 0];
   [0; 0; 0; c44; 0; 0]; [0; 0; 0; 0; c44; 0]; [0; 0; 0; 0; 0; c66]].
(** Classes 4, -4, 4/m. *)
Definition tetragonal_low_m c11 c12 c13 c16 c33 c44 c66 := of_rows
  [[c11; c12; c13; 0; 0; c16]; [c12; c11; c13; 0; 0; - c16]; [c13; c13; c33; 0; 0; 0];
   [0; 0; 0; c44; 0; 0]; [0; 0; 0; 0; c44; 0]; [c16; - c16; 0; 0; 0; c66]].
Definition orthorhombic_m c11 c12 c13 c22 c23 c33 c44 c55 c66 := of_rows
  [[c11; c12; c13; 0; 0; 0]; [c12; c22; c23; 0; 0; 0]; [c13; c23; c33; 0; 0; 0];
   [0; 0; 0; c44; 0; 0]; [0; 0; 0; 0; c55; 0]; [0; 0; 0; 0; 0; c66]].
(** Unique axis b. *)
Definition monoclinic_m c11 c12 c13 c15 c22 c23 c25 c33 c35 c44 c46 c55 c66 := of_rows
  [[c11; c12; c13; 0; c15; 0]; [c12; c22; c23; 0; c25; 0]; [c13; c23; c33; 0; c35; 0];
   [0; 0; 0; c44; 0; c46]; [c15; c25; c35; 0; c55; 0]; [0; 0; 0; c46; 0; c66]].

Lemma of_rows_symmetric l :
  (forall i j, (i < 6)%nat -> (j < 6)%nat -> nth j (nth i l []) 0 = nth i (nth j l []) 0) -> symmetric (of_rows l).
Proof. intros H i j Hi Hj. apply H; assumption. Qed.
Ltac sym_tac := intros i j Hi Hj;
  do 6 (destruct i as [|i]; [do 6 (destruct j as [|j]; [reflexivity|]); lia|]); lia.

Ltac enf := unfold enforced, uniaxial, all_negligible, orthotropic_zeros, approx, negligible, C,
  cubic_m, hexagonal_m, trigonal_high_m, trigonal_low_m, tetragonal_high_m, tetragonal_low_m, orthorhombic_m, monoclinic_m, of_rows in *;
  cbn [fst snd Nat.sub nth] in *.
Lemma abs0 : Rabs 0 <= 1 / 1000. Proof. rewrite Rabs_R0. lra. Qed.
Ltac sat := enf; repeat apply conj; repeat apply Forall_cons; try apply Forall_nil; cbn [fst snd Nat.sub nth];
  first [exact I | apply abs0 | apply negl_minus_self | assumption | rewrite Rabs_minus_sym; assumption].
Ltac unsat H := enf; apply (conj I) in H; decompose [and] H; clear H;
  repeat match goal with F : Forall _ (_ :: _) |- _ => apply Forall_cons_iff in F as (? & F); cbn [fst snd Nat.sub nth] in * end.
(** Case analysis on the earlier names. *)
Ltac earlier := let s' := fresh "s" in let R := fresh "Rk" in let En := fresh "En" in
  intros s' R En; destruct s'; simpl in R; try lia; unsat En.

Theorem C27_cubic c11 c12 c44 : check_symmetry (cubic_m c11 c12 c44) = Some Cubic.
Proof. apply C26_first_match; [sym_tac|]. split; [sat|]. intros s' R. destruct s'; simpl in R; lia. Qed.

(** A hexagonal crystal is labelled hexagonal unless it is cubic within the tolerance. *)
Theorem C27_hexagonal c11 c12 c13 c33 c44 :
  let m := hexagonal_m c11 c12 c13 c33 c44 in
  check_symmetry m = Some Hexagonal \/ check_symmetry m = Some Cubic /\ enforced Cubic m.
Proof.
  intros m. assert (S : symmetric m) by (unfold m; sym_tac).
  destruct (C26_total m S) as (s & E). pose proof (proj1 (C26_first_match m s S) E) as (F & N).
  destruct (Nat.lt_ge_cases 1 (rank s)) as [G|G].
  - exfalso. apply (N Hexagonal G). unfold m. sat.
  - destruct s; simpl in G; try lia; [right|left; exact E]. split; assumption.
Qed.
(** Tetragonal crystals of the high-symmetry classes are reported as trigonal. *)
Theorem C27_tetragonal_high_is_called_trigonal c11 c12 c13 c33 c44 c66 :
  ~ approx c66 ((c11 - c12) / 2) -> ~ approx c44 c66 ->
  check_symmetry (tetragonal_high_m c11 c12 c13 c33 c44 c66) = Some TrigonalHigh.
Proof.
  intros H1 H2. apply C26_first_match; [sym_tac|]. split; [sat|]. earlier; tauto.
Qed.
(** Trigonal crystals of the high-symmetry classes are reported as the low ones. *)
Theorem C27_trigonal_high_is_called_low c11 c12 c13 c14 c33 c44 :
  ~ negligible c14 -> check_symmetry (trigonal_high_m c11 c12 c13 c14 c33 c44) = Some TrigonalLow.
Proof.
  intros H1. apply C26_first_match; [sym_tac|]. split; [sat|]. earlier; tauto.
Qed.
Lemma negligible_opp c : negligible (- c) -> negligible c.
Proof. unfold negligible. now rewrite Rabs_Ropp. Qed.
Theorem C27_trigonal_low c11 c12 c13 c14 c15 c33 c44 :
  ~ negligible c14 \/ ~ negligible c15 ->
  check_symmetry (trigonal_low_m c11 c12 c13 c14 c15 c33 c44) = Some TrigonalLow.
Proof.
  intros H1. apply C26_first_match; [sym_tac|]. split; [sat|]. pose proof (negligible_opp c15).
  earlier; tauto.
Qed.
Theorem C27_tetragonal_low c11 c12 c13 c16 c33 c44 c66 :
  ~ negligible c16 -> check_symmetry (tetragonal_low_m c11 c12 c13 c16 c33 c44 c66) = Some TetragonalLow.
Proof.
  intros H1. apply C26_first_match; [sym_tac|]. split; [sat|]. earlier; tauto.
Qed.
(** The fast path is used exactly for orthorhombic matrices that are not uniaxial. *)
Theorem C27_orthorhombic c11 c12 c13 c22 c23 c33 c44 c55 c66 :
  ~ (approx c11 c22 /\ approx c13 c23 /\ approx c44 c55) ->
  check_symmetry (orthorhombic_m c11 c12 c13 c22 c23 c33 c44 c55 c66) = Some Orthorhombic.
Proof.
  intros H1. apply C26_first_match; [sym_tac|]. split; [sat|]. earlier; tauto.
Qed.
Theorem C27_orthorhombic_uniaxial c11 c12 c13 c22 c23 c33 c44 c55 c66 :
  approx c11 c22 -> approx c13 c23 -> approx c44 c55 ->
  let m := orthorhombic_m c11 c12 c13 c22 c23 c33 c44 c55 c66 in
  check_symmetry m = Some Cubic \/ check_symmetry m = Some Hexagonal \/ check_symmetry m = Some TrigonalHigh.
Proof.
  intros H1 H2 H3 m. assert (S : symmetric m) by (unfold m; sym_tac).
  destruct (C26_total m S) as (s & E). pose proof (proj1 (C26_first_match m s S) E) as (F & N).
  destruct (Nat.lt_ge_cases 2 (rank s)) as [G|G].
  - exfalso. apply (N TrigonalHigh G). unfold m. sat.
  - destruct s; simpl in G; try lia; auto.
Qed.
Theorem C27_monoclinic c11 c12 c13 c15 c22 c23 c25 c33 c35 c44 c46 c55 c66 :
  ~ (approx c11 c22 /\ approx c13 c23 /\ approx c44 c55) ->
  ~ (negligible c15 /\ negligible c25 /\ negligible c35 /\ negligible c46) ->
  check_symmetry (monoclinic_m c11 c12 c13 c15 c22 c23 c25 c33 c35 c44 c46 c55 c66) = Some Monoclinic.
Proof.
  intros H1 H2. apply C26_first_match; [sym_tac|]. split; [sat|]. earlier; tauto.
Qed.
(** Any other symmetric matrix is triclinic. *)
Theorem C27_triclinic m :
  symmetric m -> ~ uniaxial m ->
  ~ (negligible (C m 1 4) /\ negligible (C m 1 6) /\ negligible (C m 2 4) /\ negligible (C m 2 6) /\
     negligible (C m 3 4) /\ negligible (C m 3 6) /\ negligible (C m 4 5) /\ negligible (C m 5 6)) ->
  check_symmetry m = Some Triclinic.
Proof.
  intros S U Z. apply C26_first_match; [exact S|]. split; [exact I|].
  intros s' R En. destruct s'; simpl in R; try lia; unfold enforced, uniaxial, all_negligible, orthotropic_zeros in *;
  apply (conj I) in En; decompose [and] En; clear En;
  repeat match goal with F : Forall _ (_ :: _) |- _ => apply Forall_cons_iff in F as (? & F); cbn [fst snd] in * end;
  tauto.
Qed.
(** The opposite-sign relations are never tested: a matrix with arbitrary C14, C15
    and C25 is called hexagonal, although these vanish in every hexagonal crystal. *)
Theorem C27_hexagonal_sound_refuted c14 c15 c25 :
  exists m, symmetric m /\ check_symmetry m = Some Hexagonal /\ C m 1 4 = c14 /\ C m 1 5 = c15 /\ C m 2 5 = c25.
Proof.
  exists (of_rows
  [[3; 1; 0; c14; c15; 0]; [1; 3; 0; 0; c25; 0]; [0; 0; 5; 0; 0; 0];
   [c14; 0; 0; 1; 0; 0]; [c15; c25; 0; 0; 1; 0]; [0; 0; 0; 0; 0; 1]]).
  split; [sym_tac|]. split; [|repeat split].
  apply C26_first_match; [sym_tac|]. split.
  - enf. repeat apply conj; repeat apply Forall_cons; try apply Forall_nil; cbn [fst snd Nat.sub nth];
    first [apply abs0 | apply negl_minus_self | replace (1 - (3 - 1) / 2) with 0 by lra; apply abs0].
  - intros s' R En. destruct s'; simpl in R; try lia. destruct En as (_ & (_ & En & _) & _). enf.
    rewrite Rabs_left in En by lra. lra.
Qed.
(** Rutile-like and quartz-like constants. *)
Example C27_rutile : check_symmetry (tetragonal_high_m 270 176 147 480 124 193) = Some TrigonalHigh.
Proof. apply C27_tetragonal_high_is_called_trigonal; unfold approx; rewrite ?Rabs_left, ?Rabs_right by lra; lra. Qed.
Example C27_quartz : check_symmetry (trigonal_high_m 87 7 12 (-18) 107 58) = Some TrigonalLow.
Proof. apply C27_trigonal_high_is_called_low; unfold negligible; rewrite Rabs_left by lra; lra. Qed.
Example C27_olivine : check_symmetry (orthorhombic_m 320 68 71 196 77 233 64 77 79) = Some Orthorhombic.
Proof. apply C27_orthorhombic. unfold approx. rewrite Rabs_right by lra. lra. Qed.
Example C26_unsymmetric_instance : check_symmetry (of_rows [[0; 1]]) = None.
Proof. apply C26_unsymmetric. unfold approx, C, of_rows. simpl. rewrite Rabs_right by lra. lra. Qed.

Print Assumptions C26_label_means.
Print Assumptions C26_first_match.
Print Assumptions C27_tetragonal_high_is_called_trigonal.
Print Assumptions C27_hexagonal_sound_refuted.
