(** C89: the parameters marked as implied, and what the columns of the report hold. *)
From Coq Require Import Reals Lra Lia String Ascii List Bool Arith ZArith.
From Verif Require Import Py DecimalModel DecimalProofs FormatModel FormatProofs TableModel ReportModel ReportSpec ReportProofs PvEosModel EosFitModel EosReportModel EosReportProps.
Import ListNotations.
Open Scope string_scope.
Open Scope list_scope.
Open Scope nat_scope.

(** ** Specification *)
Definition par (i : nat) (p : pars) : R := match i with 0 => K0 p | 1 => K1 p | 2 => K2 p | _ => V0 p end.
Definition alike (i : nat) (p q : pars) : Prop := forall j, j < 4 -> j <> i -> par j p = par j q.
(** The pressure scipy compares with the data. *)
Definition fitted (m : eos_method) (order : nat) (linear : bool) (p : pars) (V : R) : R := snd (m p V order linear true).
Definition ignores (m : eos_method) (order i : nat) : Prop :=
  forall linear p q V, alike i p q -> fitted m order linear p V = fitted m order linear q V.

Open Scope R_scope.
Lemma eight : Rpower 8 (2 / 3) = 4.
Proof. replace 8 with (Rpower 2 3). - rewrite Rpower_mult. replace (3 * (2 / 3)) with (INR 2) by (simpl; lra). rewrite Rpower_pow by lra. lra. - replace 3 with (INR 3) by (simpl; lra). rewrite Rpower_pow by lra. lra. Qed.
Lemma eighth : Rpower (1 / 8) (1 / 3) = 1 / 2.
Proof.
  replace (1 / 8) with (Rpower (1 / 2) 3). - rewrite Rpower_mult. replace (3 * (1 / 3)) with 1 by lra. apply Rpower_1. lra.
  - replace 3 with (INR 3) by (simpl; lra). rewrite Rpower_pow by lra. lra.
Qed.
Lemma over_one x : x / 1 = x.
Proof. field. Qed.
Lemma one_power y : Rpower 1 y = 1.
Proof. unfold Rpower. now rewrite ln_1, Rmult_0_r, exp_0. Qed.
Lemma inverse_power x n : 0 < x -> Rpower x (- INR n) = / x ^ n.
Proof. intros H. rewrite Rpower_Ropp, Rpower_pow by exact H. reflexivity. Qed.
Lemma rpow_pos x y : 0 < Rpower x y.
Proof. apply exp_pos. Qed.

Definition mk (k0 k1 k2 v0 : R) : pars := {| K0 := k0; K1 := k1; K2 := k2; V0 := v0 |}.
Ltac different p q := let H := fresh in intros H; specialize (H false p q 1 ltac:(intros [|[|[|[|j]]]] Hj Hi; (reflexivity || lia))); revert H; cbn [fitted].

(** *** Murnaghan *)
Lemma mu_is k0 k1 k2 v0 o : fitted murnaghan o false (mk k0 k1 k2 v0) 1 = k0 / k1 * (Rpower v0 k1 - 1).
Proof. unfold fitted, murnaghan, set_K2, mk; cbn [snd K0 K1 V0]. now rewrite over_one. Qed.
Lemma two_sq : Rpower 2 2 = 4.
Proof. replace (Rpower 2 2) with (Rpower 2 (INR 2)) by (f_equal; simpl; lra). rewrite Rpower_pow by lra. lra. Qed.
Lemma mu_0 o : ~ ignores murnaghan o 0.
Proof. different (mk 1 1 0 2) (mk 2 1 0 2). rewrite !mu_is, Rpower_1 by lra. lra. Qed.
Lemma mu_1 o : ~ ignores murnaghan o 1.
Proof. different (mk 1 1 0 2) (mk 1 2 0 2). rewrite !mu_is, Rpower_1, two_sq by lra. lra. Qed.
Lemma mu_3 o : ~ ignores murnaghan o 3.
Proof. different (mk 1 1 0 2) (mk 1 1 0 3). rewrite !mu_is, !Rpower_1 by lra. lra. Qed.
(** *** Birch-Murnaghan *)
Definition G := Rpower 4 (5 / 2).
Lemma bm_is o k0 k1 k2 : fitted birch_murnaghan o false (mk k0 k1 k2 8) 1 = let p := bm_pars (mk k0 k1 k2 8) o false true in
  9 / 2 * K0 p * G * (1 + 9 / 4 * (K1 p - 4) + 27 / 8 * (K0 p * K2 p + (K1 p - 4) * (K1 p - 3) + 35 / 9)).
Proof.
  unfold fitted, birch_murnaghan; cbn [snd]. set (p := bm_pars _ _ _ _). assert (E : V0 p = 8) by (unfold p, bm_pars, second_order; destruct (_ && _)%bool, (_ && _)%bool; reflexivity).
  rewrite E, over_one, eight. unfold G. replace (1 + 2 * (1 / 2 * (4 - 1))) with 4 by lra. cbv zeta. field.
Qed.
Lemma bm_rest o k0 k1 k2 : fitted birch_murnaghan o false (mk k0 k1 k2 1) 1 = 0.
Proof.
  unfold fitted, birch_murnaghan; cbn [snd]. set (p := bm_pars _ _ _ _). assert (E : V0 p = 1) by (unfold p, bm_pars, second_order; destruct (_ && _)%bool, (_ && _)%bool; reflexivity).
  rewrite E, over_one, one_power. field.
Qed.
Ltac run_bm := rewrite ?bm_rest, ?bm_is; unfold bm_pars, second_order, set_K1, set_K2, mk; cbn; cbv zeta; pose proof (rpow_pos 4 (5 / 2) : 0 < G).
Lemma bm_0 o : (2 <= o <= 4)%nat -> ~ ignores birch_murnaghan o 0.
Proof. intros Ho. assert (X : (o = 2 \/ o = 3 \/ o = 4)%nat) by lia. destruct X as [-> | [-> | ->]]; different (mk 1 4 0 8) (mk 2 4 0 8); run_bm; nra. Qed.
Lemma bm_1 o : (3 <= o <= 4)%nat -> ~ ignores birch_murnaghan o 1.
Proof. intros Ho. assert (X : (o = 3 \/ o = 4)%nat) by lia. destruct X as [-> | ->]; different (mk 1 4 0 8) (mk 1 5 0 8); run_bm; nra. Qed.
Lemma bm_2 : ~ ignores birch_murnaghan 4 2.
Proof. different (mk 1 4 0 8) (mk 1 4 1 8); run_bm; nra. Qed.
Lemma bm_3 o : (2 <= o <= 4)%nat -> ~ ignores birch_murnaghan o 3.
Proof. intros Ho. assert (X : (o = 2 \/ o = 3 \/ o = 4)%nat) by lia. destruct X as [-> | [-> | ->]]; different (mk 1 4 0 8) (mk 1 4 0 1); run_bm; nra. Qed.
(** *** Natural strain *)
Definition e3 := exp 3.
Lemma ns_is o k0 k1 k2 : fitted natural_strain o false (mk k0 k1 k2 e3) 1 = let p := ns_pars (mk k0 k1 k2 e3) o false true in
  3 * K0 p * e3 * (1 + 3 / 2 * (K1 p - 2) + 3 / 2 * (1 + K2 p * K0 p + (K1 p - 2) + (K1 p - 2) ^ 2)).
Proof.
  unfold fitted, natural_strain; cbn [snd]. set (p := ns_pars _ _ _ _). assert (E : V0 p = e3) by (unfold p, ns_pars, second_order; destruct (_ && _)%bool, (_ && _)%bool; reflexivity).
  rewrite E, over_one, (ln_exp 3 : ln e3 = 3). cbv zeta. field.
Qed.
Lemma ns_rest o k0 k1 k2 : fitted natural_strain o false (mk k0 k1 k2 1) 1 = 0.
Proof.
  unfold fitted, natural_strain; cbn [snd]. set (p := ns_pars _ _ _ _). assert (E : V0 p = 1) by (unfold p, ns_pars, second_order; destruct (_ && _)%bool, (_ && _)%bool; reflexivity).
  rewrite E, over_one, ln_1. field.
Qed.
Ltac run_ns := rewrite ?ns_rest, ?ns_is; unfold ns_pars, second_order, set_K1, set_K2, mk; cbn; cbv zeta; pose proof (exp_pos 3 : 0 < e3).
Lemma ns_0 o : (2 <= o <= 4)%nat -> ~ ignores natural_strain o 0.
Proof. intros Ho. assert (X : (o = 2 \/ o = 3 \/ o = 4)%nat) by lia. destruct X as [-> | [-> | ->]]; different (mk 1 2 0 e3) (mk 2 2 0 e3); run_ns; nra. Qed.
Lemma ns_1 o : (3 <= o <= 4)%nat -> ~ ignores natural_strain o 1.
Proof. intros Ho. assert (X : (o = 3 \/ o = 4)%nat) by lia. destruct X as [-> | ->]; different (mk 1 2 0 e3) (mk 1 3 0 e3); run_ns; nra. Qed.
Lemma ns_2 : ~ ignores natural_strain 4 2.
Proof. different (mk 1 2 0 e3) (mk 1 2 1 e3); run_ns; nra. Qed.
Lemma ns_3 o : (2 <= o <= 4)%nat -> ~ ignores natural_strain o 3.
Proof. intros Ho. assert (X : (o = 2 \/ o = 3 \/ o = 4)%nat) by lia. destruct X as [-> | [-> | ->]]; different (mk 1 2 0 e3) (mk 1 2 0 1); run_ns; nra. Qed.
(** *** Vinet *)
Lemma vi_is o k0 k1 k2 : fitted vinet o false (mk k0 k1 k2 8) 1 = 6 * k0 * exp (3 / 4 * ((if (o =? 2)%nat then 1 else k1) - 1)).
Proof.
  unfold fitted, vinet; cbn [snd]. set (p := vinet_pars _ _ _ _).
  assert (E : V0 p = 8) by (unfold p, vinet_pars, second_order; destruct (_ && _)%bool; reflexivity).
  assert (E1 : K1 p = if (o =? 2)%nat then 1 else k1) by (unfold p, vinet_pars, second_order; cbn [andb]; destruct (o =? 2)%nat; reflexivity).
  assert (E0 : K0 p = k0) by (unfold p, vinet_pars, second_order; destruct (_ && _)%bool; reflexivity).
  rewrite E, E1, E0, eighth. replace (3 / 2 * ((if (o =? 2)%nat then 1 else k1) - 1) * (1 - 1 / 2)) with (3 / 4 * ((if (o =? 2)%nat then 1 else k1) - 1)) by lra. field.
Qed.
Lemma vi_rest o k0 k1 k2 : fitted vinet o false (mk k0 k1 k2 1) 1 = 0.
Proof.
  unfold fitted, vinet; cbn [snd]. set (p := vinet_pars _ _ _ _).
  assert (E : V0 p = 1) by (unfold p, vinet_pars, second_order; destruct (_ && _)%bool; reflexivity).
  rewrite E, over_one, one_power. unfold Rdiv. ring.
Qed.
Lemma vi_0 o : ~ ignores vinet o 0.
Proof. different (mk 1 1 0 8) (mk 2 1 0 8). rewrite !vi_is. match goal with |- context [exp ?x] => pose proof (exp_pos x) end. lra. Qed.
Lemma vi_1 : ~ ignores vinet 3 1.
Proof. different (mk 1 1 0 8) (mk 1 2 0 8). rewrite !vi_is. cbn [Nat.eqb]. pose proof (exp_increasing (3 / 4 * (1 - 1)) (3 / 4 * (2 - 1)) ltac:(lra)). lra. Qed.
Lemma vi_3 o : ~ ignores vinet o 3.
Proof. different (mk 1 1 0 8) (mk 1 1 0 1). rewrite vi_is, vi_rest. match goal with |- context [exp ?x] => pose proof (exp_pos x) end. lra. Qed.
(** *** Tait *)
Lemma ta_is o k0 k1 k2 v0 p : tait_pars (mk k0 k1 k2 v0) o false true = p ->
  fitted tait o false (mk k0 k1 k2 v0) 1 = 1 / tait_b p * (Rpower ((1 / V0 p + tait_a p - 1) / tait_a p) (-1 / tait_c p) - 1).
Proof. now intros <-. Qed.
(** order 2 *)
Lemma ta_2 k0 k1 k2 v0 : 0 < k0 -> fitted tait 2 false (mk k0 k1 k2 v0) 1 = 5 * k0 / 24 * (Rpower ((1 / v0 + 4) / 5) (- 24) - 1).
Proof.
  intros H. erewrite ta_is by reflexivity. unfold tait_pars, tait_a, tait_b, tait_c, second_order, set_K1, set_K2, mk. cbn [Nat.eqb Nat.ltb Nat.leb andb K0 K1 K2 V0].
  replace ((1 + 4) / (1 + 4 + k0 * (- (4) / k0))) with 5 by (field; lra).
  replace (-1 / ((1 + 4 + k0 * (- (4) / k0)) / (4 ^ 2 + 4 - k0 * (- (4) / k0)))) with (- 24) by (field; lra).
  replace (1 / v0 + 5 - 1) with (1 / v0 + 4) by lra. field. lra.
Qed.
(** order 3 with K' = 1 and K' = 2 *)
Lemma ta_3 k0 k2 v0 : 0 < k0 -> fitted tait 3 false (mk k0 1 k2 v0) 1 = 2 * k0 / 3 * (Rpower ((1 / v0 + 1) / 2) (- INR 3) - 1).
Proof.
  intros H. erewrite ta_is by reflexivity. unfold tait_pars, tait_a, tait_b, tait_c, second_order, set_K1, set_K2, mk. cbn [Nat.eqb Nat.ltb Nat.leb andb K0 K1 K2 V0].
  replace ((1 + 1) / (1 + 1 + k0 * (- (1) / k0))) with 2 by (field; lra).
  replace (-1 / ((1 + 1 + k0 * (- (1) / k0)) / (1 ^ 2 + 1 - k0 * (- (1) / k0)))) with (- INR 3) by (cbn [INR]; field; lra).
  replace (1 / v0 + 2 - 1) with (1 / v0 + 1) by lra. field. lra.
Qed.
Lemma ta_3' k2 v0 : fitted tait 3 false (mk 1 2 k2 v0) 1 = 3 / 8 * (Rpower ((1 / v0 + 2) / 3) (- INR 8) - 1).
Proof.
  erewrite ta_is by reflexivity. unfold tait_pars, tait_a, tait_b, tait_c, second_order, set_K1, set_K2, mk. cbn [Nat.eqb Nat.ltb Nat.leb andb K0 K1 K2 V0].
  replace ((1 + 2) / (1 + 2 + 1 * (- (2) / 1))) with 3 by field.
  replace (-1 / ((1 + 2 + 1 * (- (2) / 1)) / (2 ^ 2 + 2 - 1 * (- (2) / 1)))) with (- INR 8) by (cbn [INR]; field).
  replace (1 / v0 + 3 - 1) with (1 / v0 + 2) by lra. field.
Qed.
(** order 4 with K'' = 0 is Murnaghan's; with K0 = K' = 1 and K'' = -1 it is ta_3 *)
Lemma ta_4 k0 k1 v0 : 0 < k0 -> 0 < k1 -> fitted tait 4 false (mk k0 k1 0 v0) 1 = k0 / k1 * (Rpower (1 / v0) (- k1) - 1).
Proof.
  intros H H1. erewrite ta_is by reflexivity. unfold tait_pars, tait_a, tait_b, tait_c, second_order, set_K1, set_K2, mk. cbn [Nat.eqb Nat.ltb Nat.leb andb K0 K1 K2 V0].
  replace ((1 + k1) / (1 + k1 + k0 * 0)) with 1 by (field; lra).
  replace (-1 / ((1 + k1 + k0 * 0) / (k1 ^ 2 + k1 - k0 * 0))) with (- k1) by (field; split; nra).
  replace ((1 / v0 + 1 - 1) / 1) with (1 / v0) by lra. field. split; lra.
Qed.
Lemma ta_4' v0 : fitted tait 4 false (mk 1 1 (-1) v0) 1 = 2 / 3 * (Rpower ((1 / v0 + 1) / 2) (- INR 3) - 1).
Proof.
  erewrite ta_is by reflexivity. unfold tait_pars, tait_a, tait_b, tait_c, second_order, set_K1, set_K2, mk. cbn [Nat.eqb Nat.ltb Nat.leb andb K0 K1 K2 V0].
  replace ((1 + 1) / (1 + 1 + 1 * -1)) with 2 by field.
  replace (-1 / ((1 + 1 + 1 * -1) / (1 ^ 2 + 1 - 1 * -1))) with (- INR 3) by (cbn [INR]; field).
  replace (1 / v0 + 2 - 1) with (1 / v0 + 1) by lra. field.
Qed.
Lemma half_minus_one : Rpower (1 / 2) (- (1)) = 2.
Proof. rewrite Rpower_Ropp, Rpower_1 by lra. lra. Qed.
Lemma below_one : Rpower ((1 / (1 / 2) + 4) / 5) (- 24) < 1.
Proof. set (x := (1 / (1 / 2) + 4) / 5). assert (Hx : 1 < x) by (unfold x; lra). apply Rlt_le_trans with (Rpower x 0); [apply Rpower_lt; lra|]. rewrite Rpower_O; lra. Qed.
Lemma ta_0 o : (2 <= o <= 4)%nat -> ~ ignores tait o 0.
Proof.
  intros Ho. assert (X : (o = 2 \/ o = 3 \/ o = 4)%nat) by lia. destruct X as [-> | [-> | ->]].
  - different (mk 1 1 0 (1 / 2)) (mk 2 1 0 (1 / 2)). rewrite !ta_2 by lra. pose proof below_one. lra.
  - different (mk 1 1 0 2) (mk 2 1 0 2). rewrite !ta_3 by lra. rewrite inverse_power by lra. simpl. lra.
  - different (mk 1 1 0 2) (mk 2 1 0 2). rewrite !ta_4 by lra. rewrite half_minus_one. lra.
Qed.
Lemma ta_1 o : (3 <= o <= 4)%nat -> ~ ignores tait o 1.
Proof.
  intros Ho. assert (X : (o = 3 \/ o = 4)%nat) by lia. destruct X as [-> | ->].
  - different (mk 1 1 0 2) (mk 1 2 0 2). rewrite ta_3, ta_3' by lra. rewrite !inverse_power by lra. simpl. lra.
  - different (mk 1 1 0 2) (mk 1 2 0 2). rewrite !ta_4 by lra. rewrite half_minus_one. replace (- (2)) with (- INR 2) by (simpl; lra). rewrite inverse_power by lra. simpl. lra.
Qed.
Lemma ta_2' : ~ ignores tait 4 2.
Proof. different (mk 1 1 0 2) (mk 1 1 (-1) 2). rewrite ta_4, ta_4' by lra. rewrite half_minus_one, inverse_power by lra. simpl. lra. Qed.
Lemma ta_3o o : (2 <= o <= 4)%nat -> ~ ignores tait o 3.
Proof.
  intros Ho. assert (X : (o = 2 \/ o = 3 \/ o = 4)%nat) by lia. destruct X as [-> | [-> | ->]].
  - different (mk 1 1 0 (1 / 2)) (mk 1 1 0 1). rewrite !ta_2 by lra. pose proof below_one. replace ((1 / 1 + 4) / 5) with 1 by lra. rewrite one_power. lra.
  - different (mk 1 1 0 2) (mk 1 1 0 1). rewrite !ta_3 by lra. rewrite !inverse_power by lra. simpl. lra.
  - different (mk 1 1 0 2) (mk 1 1 0 1). rewrite !ta_4 by lra. rewrite half_minus_one. replace (1 / 1) with 1 by lra. rewrite one_power. lra.
Qed.

(** ** C89: the marks *)
(** [IMPLIED] marks exactly the parameters the fitted curve does not depend on,
    for every formulation and order the menus offer. *)
Theorem C89_marks menu m orders order i : EOS_FUNCTIONS menu = Some m -> EOS_ORDERS menu = Some orders -> In order orders -> (i < 4)%nat ->
  implied order i = true <-> ignores m order i.
Proof.
  intros Em Eo Io Hi. unfold EOS_FUNCTIONS, EOS_ORDERS in Em, Eo.
  assert (D : forall p q, alike 1 p q -> K0 p = K0 q /\ K2 p = K2 q /\ V0 p = V0 q) by (intros p q A; repeat split; [apply (A 0%nat)|apply (A 2%nat)|apply (A 3%nat)]; lia).
  assert (D2 : forall p q, alike 2 p q -> K0 p = K0 q /\ K1 p = K1 q /\ V0 p = V0 q) by (intros p q A; repeat split; [apply (A 0%nat)|apply (A 1%nat)|apply (A 3%nat)]; lia).
  destruct (menu =? "1")%string; [|destruct (menu =? "2")%string; [|destruct (menu =? "3")%string; [|destruct (menu =? "4")%string; [|destruct (menu =? "5")%string; [|discriminate]]]]];
    injection Em as <-; injection Eo as <-; cbn [In] in Io.
  - destruct Io as [<- | []]. destruct i as [|[|[|[|i]]]]; [| | | |lia]; cbn; split; intros H; try discriminate H; try reflexivity.
    + now apply mu_0 in H. + now apply mu_1 in H. + intros l p q V A. destruct (D2 p q A) as (A0 & A1 & A3). unfold fitted, murnaghan, set_K2; cbn. now rewrite A0, A1, A3. + now apply mu_3 in H.
  - assert (Ho : (2 <= order <= 4)%nat) by lia. destruct i as [|[|[|[|i]]]]; [| | | |lia]; destruct Io as [<- | [<- | [<- | []]]]; cbn; split; intros H; try discriminate H; try reflexivity;
      try (exfalso; revert H; first [now apply bm_0; lia|now apply bm_1; lia|now apply bm_2|now apply bm_3; lia]);
      intros l p q V A; (destruct (D p q A) as (A0 & A1 & A3) || destruct (D2 p q A) as (A0 & A1 & A3)); unfold fitted, birch_murnaghan, bm_pars, second_order, set_K1, set_K2; cbn; now rewrite ?A0, ?A1, ?A3.
  - assert (Ho : (2 <= order <= 4)%nat) by lia. destruct i as [|[|[|[|i]]]]; [| | | |lia]; destruct Io as [<- | [<- | [<- | []]]]; cbn; split; intros H; try discriminate H; try reflexivity;
      try (exfalso; revert H; first [now apply ns_0; lia|now apply ns_1; lia|now apply ns_2|now apply ns_3; lia]);
      intros l p q V A; (destruct (D p q A) as (A0 & A1 & A3) || destruct (D2 p q A) as (A0 & A1 & A3)); unfold fitted, natural_strain, ns_pars, second_order, set_K1, set_K2; cbn; now rewrite ?A0, ?A1, ?A3.
  - destruct i as [|[|[|[|i]]]]; [| | | |lia]; destruct Io as [<- | [<- | []]]; cbn; split; intros H; try discriminate H; try reflexivity;
      try (exfalso; revert H; first [now apply vi_0|now apply vi_1|now apply vi_3]);
      intros l p q V A; (destruct (D p q A) as (A0 & A1 & A3) || destruct (D2 p q A) as (A0 & A1 & A3)); unfold fitted, vinet, vinet_pars, second_order, set_K1, set_K2; cbn; now rewrite ?A0, ?A1, ?A3.
  - assert (Ho : (2 <= order <= 4)%nat) by lia. destruct i as [|[|[|[|i]]]]; [| | | |lia]; destruct Io as [<- | [<- | [<- | []]]]; cbn; split; intros H; try discriminate H; try reflexivity;
      try (exfalso; revert H; first [now apply ta_0; lia|now apply ta_1; lia|now apply ta_2'|now apply ta_3o; lia]);
      intros l p q V A; (destruct (D p q A) as (A0 & A1 & A3) || destruct (D2 p q A) as (A0 & A1 & A3)); unfold fitted, tait, tait_pars, tait_a, tait_b, tait_c, second_order, set_K1, set_K2; cbn; now rewrite ?A0, ?A1, ?A3.
Qed.

(** ** C89: the value of an implied parameter *)
(** K'' implied by K0 and K' at third order: the fourth order curve with it is the
    third order curve. *)
Definition implied_second (menu : string) (k0 k1 : R) : R :=
  match menu with
  | "2" => - ((3 - k1) * (4 - k1) + 35 / 9) / k0
  | "3" => - (1 + (k1 - 2) + (k1 - 2) ^ 2) / k0
  | _ => - k1 / k0
  end%string.
Theorem C89_implied_value menu m linear k0 k1 k2 v0 V : In menu ["2"; "3"; "5"] -> EOS_FUNCTIONS menu = Some m -> k0 <> 0 ->
  fitted m 3 linear (mk k0 k1 k2 v0) V = fitted m 4 linear (mk k0 k1 (implied_second menu k0 k1) v0) V.
Proof.
  intros I E H. cbn [In] in I. destruct I as [<- | [<- | [<- | []]]]; injection E as <-; unfold fitted.
  - unfold birch_murnaghan, bm_pars, second_order, set_K2, mk, implied_second; cbn. do 2 f_equal. field. exact H.
  - unfold natural_strain, ns_pars, second_order, set_K2, mk, implied_second; cbn. do 2 f_equal. field. exact H.
  - unfold tait, tait_pars, tait_a, tait_b, tait_c, second_order, set_K2, mk, implied_second; cbn. reflexivity.
Qed.
Lemma second_is menu m linear p V : In menu ["2"; "3"; "5"] -> EOS_FUNCTIONS menu = Some m -> K0 p <> 0 ->
  K2 (fst (m p V 3%nat linear true)) = implied_second menu (K0 p) (K1 p).
Proof.
  intros I E H. cbn [In] in I. destruct I as [<- | [<- | [<- | []]]]; injection E as <-; cbn; try reflexivity; field; exact H.
Qed.
(** Two numbers further apart than the last decimal are not both said. *)
Lemma far_apart x x' v : / 100000 < Rabs (x - x') -> rounded 5 x v -> rounded 5 x' v -> False.
Proof.
  intros F (_ & H) (_ & H'). replace (powerRZ 10 (- Z.of_nat 5)) with (/ 100000) in * by (simpl; lra). revert F H H'. unfold Rabs. repeat destruct (Rcase_abs _); lra.
Qed.
(** scipy evaluates the curve once on the start values before it begins (its check
    of the model), which writes the implied K'' into them, and leaves a parameter
    without influence as it is. So the K'' marked as implied belongs to the start
    values, not to the K0 and K' printed above it. *)
Theorem C89_implied_value_refuted vunit r n values pressure key menu m fix_ wp wv start V linear k0 k1 :
  In key ["v"; "a"; "b"; "c"] -> In menu ["2"; "3"; "5"] -> EOS_FUNCTIONS menu = Some m ->
  K0 start <> 0 -> beta r 0%nat = Fin k0 -> beta r 1%nat = Fin k1 -> beta r 2%nat = Fin (K2 (fst (m start V 3%nat linear true))) ->
  exists text ls l, report_fit vunit r n values pressure (data_name key) (eos_name menu) 3 wp wv fix_ (get_label key) = Some text /\
    contains text ("Fitting parameters:" :: ls) /\ nth_error ls 2 = Some l /\
    says l ([Word (nth 2 (symbols key) ""); Word "="; Decimals 5 (implied_second menu (K0 start) (K1 start)); Word "+/-"; told 5 (sd_beta r 2)] ++
            (if (nth 2 fix_ 1 =? 0)%nat then [Word "(FIXED)"] else []) ++ [Word "[IMPLIED]"]) /\
    (/ 100000 < Rabs (implied_second menu (K0 start) (K1 start) - implied_second menu k0 k1) ->
     forall name rest, ~ says l (name :: Word "=" :: Decimals 5 (implied_second menu k0 k1) :: rest)).
Proof.
  intros Ik Im Em H0 B0 B1 B2. destruct (C89_parameters vunit r n values pressure key menu 3 wp wv fix_ Ik ltac:(lia)) as (text & E & ls & C & F).
  cbn [seq] in F. inversion F as [|? l0 ? ls0 _ F1]; subst. inversion F1 as [|? l1 ? ls1 _ F2]; subst. inversion F2 as [|? l2 ? ls2 S2 F3]; subst.
  exists text, (l0 :: l1 :: l2 :: ls2), l2. split; [exact E|]. split; [exact C|]. split; [reflexivity|].
  rewrite (second_is menu m linear start V Im Em H0) in B2. unfold parameter_cells in S2. rewrite B2 in S2. cbn [told] in S2.
  split; [exact S2|]. intros Far name rest Bad.
  assert (Sn : says l2 ([Word (nth 2 (symbols key) ""); Word "="] ++ Decimals 5 (implied_second menu (K0 start) (K1 start)) :: [Word "+/-"; told 5 (sd_beta r 2)] ++ (if (nth 2 fix_ 1 =? 0)%nat then [Word "(FIXED)"] else []) ++ [Word "[IMPLIED]"])) by exact S2.
  clear - Sn Bad Far. change (name :: Word "=" :: Decimals 5 (implied_second menu k0 k1) :: rest) with ([name; Word "="] ++ Decimals 5 (implied_second menu k0 k1) :: rest) in Bad.
  unfold says in *. remember (words l2) as ws. clear Heqws l2.
  inversion Sn as [|w1 ? wr1 ? _ Sn1]; subst. inversion Sn1 as [|w2 ? wr2 ? _ Sn2]; subst. inversion Sn2 as [|w3 ? wr3 ? Hv _]; subst. cbn [reads] in Hv. destruct Hv as (v & Ev & Rv).
  inversion Bad as [|? ? ? ? _ B1]; subst. inversion B1 as [|? ? ? ? _ B2]; subst. inversion B2 as [|? ? ? ? Hv' _]; subst. cbn [reads] in Hv'. destruct Hv' as (v' & Ev' & Rv').
  rewrite Ev in Ev'. injection Ev' as <-. exact (far_apart _ _ v Far Rv Rv').
Qed.

(** ** C89: the column P_obs *)
(** With scipy's meaning of y (the fitted pressure) and eps (fitted minus observed),
    the column named after the observed pressure holds the fitted one; the
    observed pressure is the column before it. *)
Theorem C89_observed_refuted vunit r n values pressure key menu order fix_ wp wv i P e :
  In key ["v"; "a"; "b"; "c"] -> (2 <= order <= 4)%nat -> no_space vunit -> (i < n)%nat -> pressure i = Fin P -> eps r i = Fin e -> y r i = Fin (P + e) ->
  exists text head bar rows l, report_fit vunit r n values pressure (data_name key) (eos_name menu) order wp wv fix_ (get_label key) = Some text /\
    contains text (head :: bar :: rows) /\ nth_error rows i = Some l /\
    says head (value_names key vunit ++ [Word "Pressure"; Word "(GPa)"; Word "P_obs"; Word "(GPa)"; Word "eps_P"]) /\
    says l [told 5 (values i); told 5 (delta r i); Decimals 5 P; Decimals 5 (P + e); Decimals 5 e] /\
    (/ 100000 < Rabs e -> forall c1 c2 c3 rest, ~ says l (c1 :: c2 :: c3 :: Decimals 5 P :: rest)).
Proof.
  intros Ik Ho U Hi EP Ee Ey. destruct (C89_calculated vunit r n values pressure key menu order wp wv fix_ Ik Ho U) as (text & E & head & bar & rows & C & SH & F).
  assert (X : exists l, nth_error rows i = Some l /\ says l [told 5 (values i); told 5 (delta r i); told 5 (pressure i); told 5 (y r i); told 5 (eps r i)]).
  { clear - F Hi. assert (G : forall k a rows, Forall2 (fun i l => says l [told 5 (values i); told 5 (delta r i); told 5 (pressure i); told 5 (y r i); told 5 (eps r i)]) (seq a k) rows -> forall j, (j < k)%nat ->
      exists l, nth_error rows j = Some l /\ says l [told 5 (values (a + j)%nat); told 5 (delta r (a + j)%nat); told 5 (pressure (a + j)%nat); told 5 (y r (a + j)%nat); told 5 (eps r (a + j)%nat)]).
    { induction k as [|k IH]; intros a rs Fs j Hj; [lia|]. cbn [seq] in Fs. inversion Fs as [|? l0 ? ls0 S0 F0]; subst. destruct j as [|j].
      - rewrite Nat.add_0_r. exists l0. now split.
      - destruct (IH (Datatypes.S a) ls0 F0 j ltac:(lia)) as (l & En & Sl). exists l. split; [exact En|]. now rewrite <- plus_n_Sm. }
    exact (G n 0%nat rows F i Hi). }
  destruct X as (l & En & Sl). rewrite EP, Ee, Ey in Sl. cbn [told] in Sl. exists text, head, bar, rows, l. split; [exact E|]. split; [exact C|]. split; [exact En|]. split; [exact SH|]. split; [exact Sl|].
  intros Far c1 c2 c3 rest Bad. unfold says in *. remember (words l) as ws. clear Heqws.
  inversion Sl as [|w1 ? wr1 ? _ S1]; subst. inversion S1 as [|w2 ? wr2 ? _ S2]; subst. inversion S2 as [|w3 ? wr3 ? _ S3]; subst. inversion S3 as [|w4 ? wr4 ? Hv _]; subst. cbn [reads] in Hv. destruct Hv as (v & Ev & Rv).
  inversion Bad as [|? ? ? ? _ B1]; subst. inversion B1 as [|? ? ? ? _ B2]; subst. inversion B2 as [|? ? ? ? _ B3]; subst. inversion B3 as [|? ? ? ? Hv' _]; subst. cbn [reads] in Hv'. destruct Hv' as (v' & Ev' & Rv').
  rewrite Ev in Ev'. injection Ev' as <-. refine (far_apart _ _ v _ Rv Rv'). now replace (P + e - P) with e by lra.
Qed.

(** ** Concrete cases *)
Example C89_marks_instance : ignores birch_murnaghan 3 2 /\ ~ ignores birch_murnaghan 3 1 /\ ignores vinet 2 1.
Proof.
  split; [|split].
  - apply (C89_marks "2" birch_murnaghan [2; 3; 4]%nat 3 2); [reflexivity|reflexivity|cbn; tauto|lia|reflexivity].
  - intros H. apply (C89_marks "2" birch_murnaghan [2; 3; 4]%nat 3 1) in H; [discriminate H|reflexivity|reflexivity|cbn; tauto|lia].
  - apply (C89_marks "4" vinet [2; 3]%nat 2 1); [reflexivity|reflexivity|cbn; tauto|lia|reflexivity].
Qed.
(** The fit of EosReportProps started from K0 = 100, K' = 4: -7/180 of the start
    values is printed, the fitted ones imply -7/360. *)
Example C89_implied_value_instance : let start := mk 100 4 0 100 in
  K0 start <> 0 /\ beta fit_of_two 0%nat = Fin 200 /\ beta fit_of_two 1%nat = Fin 4 /\ beta fit_of_two 2%nat = Fin (-7 / 180) /\
  K2 (fst (birch_murnaghan start 90 3%nat false true)) = -7 / 180 /\ implied_second "2" 100 4 = -7 / 180 /\ implied_second "2" 200 4 = -7 / 360 /\
  / 100000 < Rabs (implied_second "2" 100 4 - implied_second "2" 200 4).
Proof.
  assert (A : implied_second "2" 100 4 = -7 / 180) by (unfold implied_second; lra). assert (B : implied_second "2" 200 4 = -7 / 360) by (unfold implied_second; lra).
  cbv zeta. repeat (split; [first [reflexivity|cbn; lra|exact A|exact B]|]). rewrite A, B. rewrite Rabs_left by lra. lra.
Qed.
Example C89_observed_instance : y fit_of_two 1%nat = Fin (1 + / 10) /\ eps fit_of_two 1%nat = Fin (/ 10) /\ / 100000 < Rabs (/ 10).
Proof. split; [reflexivity|]. split; [reflexivity|]. rewrite Rabs_right; lra. Qed.

Print Assumptions C89_marks.
Print Assumptions C89_implied_value.
Print Assumptions C89_implied_value_refuted.
Print Assumptions C89_observed_refuted.
