(** Properties C14 and C15 (Legendre transforms, adiabatic bulk modulus). *)
From Coq Require Import Reals List Lra Lia Bool Arith Psatz.
From Verif Require Import ParModel ParProofs StatMechModel ThermoModel.
Import ListNotations.
Open Scope R_scope.

Lemma store_row_row m val i o : In o (store_row m val i) -> row R o = i.
Proof. unfold store_row. intros I. apply in_map_iff in I as (j & <- & _). reflexivity. Qed.

Lemma exec_sets m val i : forall (M : memory R) c s,
  exec Rplus (map (fun j => SetTo i j (val i j)) (seq s m)) M i c =
  if ((s <=? c) && (c <? s + m))%nat then val i c else M i c.
Proof.
  induction m as [|m IH]; intros M c s.
  - simpl. destruct (Nat.leb_spec s c), (Nat.ltb_spec c (s + 0)); simpl; try reflexivity; lia.
  - cbn [seq map exec]. rewrite IH. unfold write. rewrite Nat.eqb_refl.
    destruct (Nat.leb_spec s c), (Nat.ltb_spec c (s + S m)), (Nat.leb_spec (S s) c),
      (Nat.ltb_spec c (S s + m)); cbn [andb]; try reflexivity; try lia;
    destruct (Nat.eqb_spec c s); subst; try reflexivity; lia.
Qed.

(** Inside the n x m range the kernel holds the entry, outside it is zero. *)
Lemma kernel_in n m val i j : (i < n)%nat -> (j < m)%nat -> kernel n m val i j = val i j.
Proof.
  intros Hi Hj. unfold kernel.
  rewrite exec_seq_row by (auto; intros; eapply store_row_row; eauto).
  unfold store_row. rewrite exec_sets.
  destruct (Nat.leb_spec 0 j), (Nat.ltb_spec j (0 + m)); simpl; try reflexivity; lia.
Qed.

Theorem C14_schedule_independent n m val M :
  run Rplus n (zeros, start (store_row m val)) M ->
  forall i j, M i j = kernel n m val i j.
Proof. intros R. apply schedule_independent; [|exact R]. intros; eapply store_row_row; eauto. Qed.

Section Props.
Variable NA : R.
Variables n m : nat.

(** ** C14 *)
Theorem C14_Legendre V p U F i j :
  (i < n)%nat -> (j < m)%nat ->
  enthalpy NA n m V p U i j - U i j = gibbs NA n m V p F i j - F i j /\
  1000 * (enthalpy NA n m V p U i j - U i j) = NA * (p j * V i j) /\
  (p j = 0 -> enthalpy NA n m V p U i j = U i j /\ gibbs NA n m V p F i j = F i j).
Proof.
  intros Hi Hj. unfold enthalpy, gibbs. rewrite !kernel_in by assumption.
  unfold enthalpy_entry, gibbs_entry. repeat split; try lra. all: rewrite H; lra.
Qed.

(** Affine in the pressure, with slope NA*V/1000. *)
Theorem C14_affine_in_pressure V p p' U F i j :
  (i < n)%nat -> (j < m)%nat ->
  enthalpy NA n m V p' U i j - enthalpy NA n m V p U i j = NA * V i j / 1000 * (p' j - p j) /\
  gibbs NA n m V p' F i j - gibbs NA n m V p F i j = NA * V i j / 1000 * (p' j - p j).
Proof.
  intros Hi Hj. unfold enthalpy, gibbs. rewrite !kernel_in by assumption.
  unfold enthalpy_entry, gibbs_entry. split; lra.
Qed.

(** ** C15 *)
Hypothesis NA_pos : 0 < NA.
Variables (T : nat -> R) (V KT alpha Cv : mat) (f : R).
Hypothesis f_pos : 0 < f.
Notation KS := (adiabatic_bulk_modulus NA n m T V KT alpha Cv f).
Notation gamma := (gruneisen_parameter NA n m V (fun i j => f * KT i j) alpha Cv).

Lemma Req_b_true a b : Req_b a b = true <-> a = b.
Proof. unfold Req_b. destruct (Req_EM_T a b); split; intros; congruence || auto. Qed.
Lemma Req_b_false a b : Req_b a b = false <-> a <> b.
Proof. unfold Req_b. destruct (Req_EM_T a b); split; intros; congruence || auto. Qed.

Theorem C15_degenerate i j :
  (i < n)%nat -> (j < m)%nat -> T i = 0 \/ Cv i j = 0 -> KS i j = KT i j.
Proof.
  intros Hi Hj D. unfold adiabatic_bulk_modulus. rewrite kernel_in by assumption. unfold KS_entry.
  destruct D as [D|D]; rewrite (proj2 (Req_b_true _ 0) D), ?orb_true_r; reflexivity.
Qed.

(** KS = KT (1 + alpha gamma T), gamma being the library's own parameter for
    the bulk modulus in Pa. *)
Theorem C15_gruneisen_relation i j :
  (i < n)%nat -> (j < m)%nat ->
  KS i j = KT i j * (1 + alpha i j * gamma i j * T i).
Proof.
  intros Hi Hj. unfold adiabatic_bulk_modulus, gruneisen_parameter. rewrite !kernel_in by assumption.
  unfold KS_entry, gamma_entry.
  destruct (Req_b (T i) 0) eqn:ET; destruct (Req_b (Cv i j) 0) eqn:EC; simpl;
    rewrite ?Req_b_true, ?Req_b_false in *.
  - rewrite ET; lra.
  - rewrite ET; lra.
  - lra.
  - field. lra.
Qed.

Theorem C15_KS_ge_KT i j :
  (i < n)%nat -> (j < m)%nat -> 0 <= T i -> 0 <= V i j -> 0 <= Cv i j -> KT i j <= KS i j.
Proof.
  intros Hi Hj HT HV HC. unfold adiabatic_bulk_modulus. rewrite kernel_in by assumption.
  unfold KS_entry. destruct (_ || _)%bool eqn:E; [lra|]. apply orb_false_elim in E as [E1 E2].
  rewrite Req_b_false in *.
  assert (0 < Cv i j / NA) by (apply Rdiv_lt_0_compat; lra).
  assert (0 <= (alpha i j * alpha i j * (f * KT i j * f * KT i j) * V i j * T i / (Cv i j / NA)) / f); [|lra].
  apply Rmult_le_pos; [|left; apply Rinv_0_lt_compat; lra].
  apply Rmult_le_pos; [|left; apply Rinv_0_lt_compat; lra].
  replace (f * KT i j * f * KT i j) with ((f * KT i j) * (f * KT i j)) by ring.
  pose proof (Rle_0_sqr (alpha i j)). pose proof (Rle_0_sqr (f * KT i j)). unfold Rsqr in *.
  apply Rmult_le_pos; [apply Rmult_le_pos; [apply Rmult_le_pos|]|]; assumption.
Qed.
(** Strictly above, whenever the expansion term is really there. *)
Theorem C15_KS_gt_KT i j :
  (i < n)%nat -> (j < m)%nat -> 0 < T i -> 0 < V i j -> 0 < Cv i j -> alpha i j <> 0 -> KT i j <> 0 ->
  KT i j < KS i j.
Proof.
  intros Hi Hj HT HV HC HA HK. unfold adiabatic_bulk_modulus. rewrite kernel_in by assumption.
  unfold KS_entry. destruct (_ || _)%bool eqn:E.
  { apply orb_prop in E as [E|E]; apply Req_b_true in E; lra. }
  assert (0 < Cv i j / NA) by (apply Rdiv_lt_0_compat; lra).
  assert (0 < (alpha i j * alpha i j * (f * KT i j * f * KT i j) * V i j * T i / (Cv i j / NA)) / f); [|lra].
  apply Rdiv_lt_0_compat; [|lra]. apply Rdiv_lt_0_compat; [|lra].
  replace (f * KT i j * f * KT i j) with ((f * KT i j) * (f * KT i j)) by ring.
  assert (f * KT i j <> 0) by (apply Rmult_integral_contrapositive_currified; lra).
  pose proof (Rsqr_pos_lt _ HA). pose proof (Rsqr_pos_lt _ H0). unfold Rsqr in *.
  apply Rmult_lt_0_compat; [apply Rmult_lt_0_compat; [apply Rmult_lt_0_compat|]|]; assumption.
Qed.

(** KS/KT = Cp/Cv with Cp = Cv + alpha^2 KT V T (molar, KT in Pa). *)
Theorem C15_heat_capacity_ratio i j Cp :
  (i < n)%nat -> (j < m)%nat -> Cv i j <> 0 ->
  Cp = Cv i j + alpha i j ^ 2 * (f * KT i j) * V i j * T i * NA ->
  KS i j * Cv i j = KT i j * Cp.
Proof.
  intros Hi Hj HC ->. rewrite C15_gruneisen_relation by assumption.
  unfold gruneisen_parameter. rewrite kernel_in by assumption. unfold gamma_entry.
  destruct (Req_b (Cv i j) 0) eqn:E; rewrite ?Req_b_true in E; [contradiction|].
  field. lra.
Qed.
End Props.

(** Numbers of a real mineral (periclase-like, SI units per cell) satisfy the
    hypotheses of the strict inequality. *)
Example C15_instance :
  let T := fun _ : nat => 300 in
  let c x := fun _ _ : nat => x in
  160 < adiabatic_bulk_modulus 6 1 1 T (c (/ 10)) (c 160) (c (/ 100000)) (c 37) 1000 0%nat 0%nat.
Proof.
  apply (C15_KS_gt_KT 6 1 1 ltac:(lra) (fun _ => 300) (fun _ _ => / 10) (fun _ _ => 160)
          (fun _ _ => / 100000) (fun _ _ => 37) 1000); simpl; try lia; lra.
Qed.
Example C14_instance :
  enthalpy 6 2 2 (fun _ _ => 3) (fun j => INR j * 1000) (fun _ _ => 1) 1%nat 1%nat = 19.
Proof. unfold enthalpy. rewrite kernel_in by lia. unfold enthalpy_entry. simpl. lra. Qed.

Print Assumptions C14_schedule_independent.
Print Assumptions C14_Legendre.
Print Assumptions C14_affine_in_pressure.
Print Assumptions C15_degenerate.
Print Assumptions C15_gruneisen_relation.
Print Assumptions C15_KS_ge_KT.
Print Assumptions C15_KS_gt_KT.
Print Assumptions C15_heat_capacity_ratio.
