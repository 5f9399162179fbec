(** C46, C47, C69-C72: derived columns, equilibrium volume and bulk modulus, and
    the harmonic run. *)
From Coq Require Import Reals String List Bool Arith Lia Lra.
From Coquelicot Require Import Coquelicot.
From Verif Require Import Py ParModel StatMechModel StatMechSpec StatMechProofs StatMechProps ThermoModel ThermoProps
  UnitsModel UnitsSpec UnitsProofs UnitsProps PolyModel PolyProps PolyfitProofs EvEosModel EvEosProps
  GridModel GridProps QhaRunModel QhaRunProps.
Import ListNotations.
Open Scope string_scope.
Open Scope list_scope.
Open Scope R_scope.

Section Run.
Variable K : constants.
Variables hplanck kboltzmann : R.
Hypothesis PK : positive_constants K.
Hypotheses (Hh : 0 < hplanck) (Hk : 0 < kboltzmann).
Variable fit : fit_function.
Variable roots : list R -> list (R * R).
Variable eos_fit : string -> nat -> (nat -> R) -> (nat -> R) -> outcome (R * R * R * R).
Variables kieffer_Cv kieffer_S : nat -> R -> R.
Variable s : settings.
Variable x : input.
Notation P := (P K hplanck kboltzmann).
Notation run := (run K hplanck kboltzmann fit roots eos_fit kieffer_Cv kieffer_S s x).
Notation td := (run_thermodynamics_interpolation K hplanck kboltzmann fit roots eos_fit kieffer_Cv kieffer_S s x).
Notation fr := (run_frequency_interpolation K hplanck kboltzmann fit roots eos_fit s x).
Notation ha := (ha_run K hplanck kboltzmann s x).

(** ** C46 *)
Theorem C46_short_grid tl pl r :
  run tl pl = Ok r -> (List.length tl < 50)%nat ->
  forall i j, alphaV r i j = 0 /\ CpCv r i j = 0 /\ Cp r i j = 0 /\ gruneisen r i j = 0 /\ KS r i j = KT r i j.
Proof.
  intros E L i j. destruct (run_inv _ _ _ _ _ _ _ _ _ _ _ _ _ E) as (ct & ph & r0 & _ & _ & _ & _ & _ & Ef).
  unfold finalize_run in Ef. do 2 (apply bind_ok in Ef as (? & _ & Ef)).
  apply Nat.ltb_lt in L. rewrite L in Ef. injection Ef as <-. simpl. unfold zeros. auto.
Qed.
(** Hence the report contradicts Cp >= Cv wherever Cv is positive. *)
Theorem C46_Cp_below_Cv_refuted tl pl r i j :
  run tl pl = Ok r -> (List.length tl < 50)%nat -> 0 < Cv r i j -> Cp r i j < Cv r i j /\ Cp r i j <> Cv r i j + CpCv r i j.
Proof. intros E L H. destruct (C46_short_grid _ _ _ E L i j) as (_ & -> & -> & _). lra. Qed.

(** ** C47 *)
Lemma long_inv tl pl r : run tl pl = Ok r -> (50 <= List.length tl)%nat ->
  exists d ce ce' cp cp' cv,
    meaning temperature_units (lower (tunit s)) = Some d /\
    conversion (fun p => convert_pressure p (punit s) "Pa") = Ok cp /\
    conversion (fun p => convert_pressure p "Pa" (punit s)) = Ok cp' /\
    conversion (fun v => convert_volume K v (vunit s) "m") = Ok cv /\
    from_eunit K s = Ok ce /\ to_eunit K s = Ok ce' /\
    let T i := si d (nth i tl 0) in
    (forall i j, (i < List.length tl)%nat -> alphaV r i j = volume_slope (List.length tl) T (fun i => VT r i j) i / VT r i j) /\
    (forall i j, CpCv r i j = ce' (alphaV r i j ^ 2 * cp (KT r i j) * cv (VT r i j) * (N_A K * T i))) /\
    (forall i j, Cp r i j = Cv r i j + CpCv r i j) /\
    (forall i j, (i < List.length tl)%nat -> (j < List.length pl)%nat ->
       KS r i j = cp' (KS_entry (N_A K) T (fun i j => cv (VT r i j)) (fun i j => cp (KT r i j)) (alphaV r) (fun i j => ce (Cv r i j)) 1 i j)) /\
    (forall i j, (i < List.length tl)%nat -> (j < List.length pl)%nat ->
       gruneisen r i j = gamma_entry (N_A K) (fun i j => cv (VT r i j)) (fun i j => cp (KT r i j)) (alphaV r) (fun i j => ce (Cv r i j)) i j).
Proof.
  intros E L. destruct (run_inv _ _ _ _ _ _ _ _ _ _ _ _ _ E) as (ct & ph & r0 & Ect & _ & _ & _ & _ & Ef).
  destruct (kelvin s ct Ect) as (d & M & KE).
  unfold finalize_run in Ef. do 2 (apply bind_ok in Ef as (? & _ & Ef)).
  apply Nat.ltb_ge in L. rewrite L in Ef.
  apply bind_ok in Ef as (cp & Ecp & Ef). apply bind_ok in Ef as (cp' & Ecp' & Ef). apply bind_ok in Ef as (cv & Ecv & Ef).
  apply bind_ok in Ef as (ce & Ece & Ef). apply bind_ok in Ef as (ce' & Ece' & Ef). injection Ef as <-.
  exists d, ce, ce', cp, cp', cv. cbn [alphaV CpCv Cp KS gruneisen VT KT Cv].
  repeat (split; [assumption|]). cbv zeta.
  assert (TE : forall V i, volume_slope (List.length tl) (fun i => ct (nth i tl 0)) V i = volume_slope (List.length tl) (fun i => si d (nth i tl 0)) V i)
    by (intros; unfold volume_slope; now rewrite !KE).
  split; [intros; now rewrite TE|]. split; [intros; now rewrite KE|]. split; [reflexivity|]. split.
  - intros i j Hi Hj. f_equal. unfold adiabatic_bulk_modulus. rewrite kernel_in by auto. unfold KS_entry. now rewrite !KE, !TE.
  - intros i j Hi Hj. unfold gruneisen_parameter. rewrite kernel_in by auto. reflexivity.
Qed.

(** Forward differences, the last temperature repeating the previous one. *)
Theorem C47_forward_differences tl pl r d i j :
  run tl pl = Ok r -> (50 <= List.length tl)%nat -> meaning temperature_units (lower (tunit s)) = Some d ->
  let T i := si d (nth i tl 0) in
  ((S i < List.length tl)%nat -> VT r i j <> 0 -> T (S i) <> T i ->
     VT r (S i) j = VT r i j + VT r i j * alphaV r i j * (T (S i) - T i)) /\
  (S (S i) = List.length tl -> VT r (S i) j <> 0 -> T (S i) <> T i ->
     VT r i j = VT r (S i) j - VT r (S i) j * alphaV r (S i) j * (T (S i) - T i)).
Proof.
  intros E L M T. destruct (long_inv _ _ _ E L) as (d' & ? & ? & ? & ? & ? & M' & _ & _ & _ & _ & _ & A & _).
  rewrite M in M'. injection M' as <-. cbv zeta in A. split.
  - intros Hi HV HT. rewrite A by lia. unfold volume_slope. apply Nat.ltb_lt in Hi. rewrite Hi. fold (T (S i)) (T i).
    field. split; lra || exact HV.
  - intros Hi HV HT. rewrite A by lia. unfold volume_slope. rewrite <- Hi, Nat.ltb_irrefl.
    replace (S (S i) - 1)%nat with (S i) by lia. replace (S (S i) - 2)%nat with i by lia. fold (T (S i)) (T i).
    field. split; lra || exact HV.
Qed.
(** The sign of the expansion is the sign of the volume change to the next
    temperature (from the previous one at the end). *)
Theorem C47_sign tl pl r d i j :
  run tl pl = Ok r -> (50 <= List.length tl)%nat -> meaning temperature_units (lower (tunit s)) = Some d ->
  (S i < List.length tl)%nat -> si d (nth i tl 0) < si d (nth (S i) tl 0) ->
  (0 < VT r i j -> (0 < alphaV r i j <-> VT r i j < VT r (S i) j)) /\
  (S (S i) = List.length tl -> 0 < VT r (S i) j -> (0 < alphaV r (S i) j <-> VT r i j < VT r (S i) j)).
Proof.
  intros E L M Hi HT. destruct (C47_forward_differences tl pl r d i j E L M) as [A B].
  assert (POS : forall v a t w, 0 < v -> 0 < t -> w = v * a * t -> (0 < a <-> 0 < w)).
  { intros v a t w Hv Ht ->. assert (0 < v * t) by now apply Rmult_lt_0_compat. split; intros H1.
    - replace (v * a * t) with (v * t * a) by ring. now apply Rmult_lt_0_compat.
    - replace (v * a * t) with (v * t * a) in H1 by ring.
      apply Rmult_lt_reg_l with (v * t); [assumption|]. lra. }
  split.
  - intros HV. specialize (A Hi ltac:(lra) ltac:(lra)).
    rewrite (POS (VT r i j) (alphaV r i j) (si d (nth (S i) tl 0) - si d (nth i tl 0)) (VT r (S i) j - VT r i j)) by lra.
    split; lra.
  - intros HL HV. specialize (B HL ltac:(lra) ltac:(lra)).
    rewrite (POS (VT r (S i) j) (alphaV r (S i) j) (si d (nth (S i) tl 0) - si d (nth i tl 0)) (VT r (S i) j - VT r i j)) by lra.
    split; lra.
Qed.
(** Exact when the volume is a linear function of temperature. *)
Theorem C47_exact_for_linear_volume tl pl r d a b i j :
  run tl pl = Ok r -> (50 <= List.length tl)%nat -> meaning temperature_units (lower (tunit s)) = Some d ->
  (forall k, (S k < List.length tl)%nat -> si d (nth k tl 0) < si d (nth (S k) tl 0)) ->
  (forall k, (k < List.length tl)%nat -> VT r k j = a + b * si d (nth k tl 0)) ->
  (i < List.length tl)%nat -> VT r i j <> 0 -> alphaV r i j = b / VT r i j.
Proof.
  intros E L M IN LIN Hi HV. destruct (long_inv _ _ _ E L) as (d' & ? & ? & ? & ? & ? & M' & _ & _ & _ & _ & _ & A & _).
  rewrite M in M'. injection M' as <-. cbv zeta in A. rewrite A by exact Hi. f_equal. unfold volume_slope.
  destruct (Nat.ltb_spec (S i) (List.length tl)) as [Hs|Hs].
  - rewrite !LIN by lia. pose proof (IN i Hs). field. lra.
  - rewrite !LIN by lia. pose proof (IN (List.length tl - 2)%nat ltac:(lia)) as Q.
    replace (S (List.length tl - 2)) with (List.length tl - 1)%nat in Q by lia. field. lra.
Qed.

(** ** C70: heat capacities, adiabatic modulus and Grueneisen parameter in
    the units of the report. Heat capacities are in thousandths of the energy
    unit per kelvin and cell. *)
Section C70.
Variables (tl pl : list R) (r : results) (d de dp dv : R * R).
Hypothesis E : run tl pl = Ok r.
Hypothesis L : (50 <= List.length tl)%nat.
Hypothesis Md : meaning temperature_units (lower (tunit s)) = Some d.
Hypothesis Me : meaning (energy_units K) (lower (eunit s)) = Some de.
Hypothesis Mp : meaning pressure_units (lower (punit s)) = Some dp.
Hypothesis Mv : meaning (volume_units K) (lower (vunit s)) = Some dv.
Variables i j : nat.
Hypotheses (Hi : (i < List.length tl)%nat) (Hj : (j < List.length pl)%nat).
(** SI: kelvin, pascal, cubic metres, joule per kelvin *)
Let tk := si d (nth i tl 0).
Let kt := fst dp * KT r i j.
Let ks := fst dp * KS r i j.
Let v := fst dv * VT r i j.
Let cap (y : R) := fst de * y / 1000.

Lemma C70_values :
  0 < fst de /\ 0 < fst dp /\ 0 < fst dv /\
  cap (CpCv r i j) = alphaV r i j ^ 2 * kt * v * tk /\
  Cp r i j = Cv r i j + CpCv r i j /\
  (cap (Cv r i j) <> 0 -> gruneisen r i j * cap (Cv r i j) = alphaV r i j * kt * v) /\
  (cap (Cv r i j) = 0 -> gruneisen r i j = 0) /\
  ks = kt * (1 + alphaV r i j * gruneisen r i j * tk).
Proof.
  destruct (long_inv _ _ _ E L) as (d' & ce & ce' & cp & cp' & cv & M' & Ecp & Ecp' & Ecv & Ece & Ece' & A & B & C & D & G).
  rewrite Md in M'. injection M' as <-. cbv zeta in *.
  unfold from_eunit in Ece. unfold to_eunit in Ece'.
  destruct (energy_scale K PK _ _ _ Ece) as (d1 & d2 & M1 & M2 & P1 & P2 & SC).
  destruct (energy_scale K PK _ _ _ Ece') as (d3 & d4 & M3 & M4 & P3 & P4 & SC').
  destruct (conversion_scale _ _ _ _ _ (volume_converts K PK) (volume_pos K PK) (volume_zero K) Ecv) as (d5 & d6 & M5 & M6 & P5 & P6 & SV).
  destruct (conversion_scale _ _ _ _ _ pressure_converts pressure_pos pressure_zero Ecp) as (d7 & d8 & M7 & M8 & P7 & P8 & SP).
  destruct (conversion_scale _ _ _ _ _ pressure_converts pressure_pos pressure_zero Ecp') as (d9 & d0 & M9 & M0 & P9 & P0 & SP').
  rewrite Me in M1, M4. injection M1 as <-. injection M4 as <-. rewrite Mv in M5. injection M5 as <-.
  rewrite Mp in M7, M0. injection M7 as <-. injection M0 as <-.
  assert (d2 = (1000 / N_A K, 0)) by (change (Some (1000 / N_A K, 0) = Some d2) in M2; congruence). subst d2.
  assert (d3 = (1000 / N_A K, 0)) by (change (Some (1000 / N_A K, 0) = Some d3) in M3; congruence). subst d3.
  assert (d6 = (1, 0)) by (change (Some (1, 0) = Some d6) in M6; congruence). subst d6.
  assert (d8 = (1, 0)) by (change (Some (1, 0) = Some d8) in M8; congruence). subst d8.
  assert (d9 = (1, 0)) by (change (Some (1, 0) = Some d9) in M9; congruence). subst d9.
  cbn [fst] in *. assert (NZ : N_A K <> 0) by (destruct PK; lra).
  split; [assumption|]. split; [assumption|]. split; [assumption|].
  assert (CC : forall y, cap y = 0 <-> y = 0).
  { intros y. unfold cap. split; intros Z; [|rewrite Z; field].
    apply Rmult_eq_reg_l with (fst de); [|lra]. lra. }
  split; [unfold cap; rewrite B, SC', SP, SV; unfold kt, v; fold tk; field; split; auto; lra|].
  split; [apply C|]. rewrite !CC.
  rewrite G by auto. unfold ks. rewrite D by auto. unfold gamma_entry, KS_entry. fold tk.
  rewrite !SP', !SC, !SP, !SV.
  assert (EQ : Req_b (fst de / (1000 / N_A K) * Cv r i j) 0 = Req_b (Cv r i j) 0).
  { destruct (Req_b (Cv r i j) 0) eqn:Z.
    - apply ThermoProps.Req_b_true in Z. apply ThermoProps.Req_b_true. rewrite Z. ring.
    - apply Req_b_false in Z. apply Req_b_false. intros Q. apply Z.
      apply Rmult_integral in Q as [Q|Q]; [|exact Q]. exfalso.
      assert (0 < fst de / (1000 / N_A K)) by (apply Rdiv_lt_0_compat; assumption). lra. }
  rewrite EQ. destruct (Req_b (Cv r i j) 0) eqn:Z.
  - apply ThermoProps.Req_b_true in Z. rewrite orb_true_r. split; [intros N; contradiction|]. split; [reflexivity|].
    unfold kt. field. lra.
  - apply Req_b_false in Z. rewrite orb_false_r. split; [|split].
    + intros _. unfold cap, kt, v. field. repeat split; auto; lra.
    + intros N. contradiction.
    + destruct (Req_b tk 0) eqn:ZT.
      * apply ThermoProps.Req_b_true in ZT. rewrite ZT. unfold kt. field. lra.
      * unfold kt. field. repeat split; auto; lra.
Qed.
Theorem C70_Cp_minus_Cv :
  cap (CpCv r i j) = alphaV r i j ^ 2 * kt * v * tk /\ Cp r i j = Cv r i j + CpCv r i j.
Proof. destruct C70_values as (_ & _ & _ & A & B & _). auto. Qed.
Theorem C70_gruneisen :
  (Cv r i j <> 0 -> gruneisen r i j * cap (Cv r i j) = alphaV r i j * kt * v) /\
  (Cv r i j = 0 -> gruneisen r i j = 0) /\
  KS r i j = KT r i j * (1 + alphaV r i j * gruneisen r i j * tk).
Proof.
  destruct C70_values as (Pe & Pp & _ & _ & _ & A & B & C). split; [|split].
  - intros Z. apply A. unfold cap. intros Q. apply Z. apply Rmult_eq_reg_l with (fst de); lra.
  - intros Z. apply B. unfold cap. rewrite Z. field.
  - unfold ks, kt in C. apply Rmult_eq_reg_l with (fst dp); [|lra]. lra.
Qed.
(** KS / KT = Cp / Cv. *)
Theorem C70_ratio : Cv r i j <> 0 -> KS r i j * Cv r i j = KT r i j * Cp r i j.
Proof.
  intros Z. destruct C70_values as (Pe & Pp & Pv & A & B & _). destruct C70_gruneisen as (C & _ & D).
  specialize (C Z). rewrite D, B. apply Rmult_eq_reg_l with (fst de / 1000); [|lra].
  replace (fst de / 1000 * (KT r i j * (1 + alphaV r i j * gruneisen r i j * tk) * Cv r i j))
    with (KT r i j * (cap (Cv r i j) + alphaV r i j * tk * (gruneisen r i j * cap (Cv r i j)))) by (unfold cap; field).
  replace (fst de / 1000 * (KT r i j * (Cv r i j + CpCv r i j))) with (KT r i j * (cap (Cv r i j) + cap (CpCv r i j))) by (unfold cap; field).
  rewrite C, A. ring.
Qed.
Theorem C70_order :
  0 <= tk -> 0 <= KT r i j -> 0 <= VT r i j -> 0 < Cv r i j -> Cv r i j <= Cp r i j /\ KT r i j <= KS r i j.
Proof.
  intros HT HK HV HC. destruct C70_values as (Pe & Pp & Pv & A & B & _).
  assert (N : 0 <= CpCv r i j).
  { apply Rmult_le_reg_l with (fst de / 1000); [lra|]. rewrite Rmult_0_r.
    replace (fst de / 1000 * CpCv r i j) with (cap (CpCv r i j)) by (unfold cap; field). rewrite A.
    assert (0 <= alphaV r i j ^ 2) by apply pow2_ge_0. assert (0 <= kt) by (unfold kt; apply Rmult_le_pos; lra).
    assert (0 <= v) by (unfold v; apply Rmult_le_pos; lra). apply Rmult_le_pos; [|exact HT].
    apply Rmult_le_pos; [|assumption]. apply Rmult_le_pos; assumption. }
  split; [lra|]. pose proof (C70_ratio ltac:(lra)) as Q.
  apply Rmult_le_reg_r with (Cv r i j); [exact HC|]. rewrite Q. apply Rmult_le_compat_l; lra.
Qed.
End C70.
End Run.

Print Assumptions C46_short_grid.
Print Assumptions C46_Cp_below_Cv_refuted.
Print Assumptions C47_forward_differences.
Print Assumptions C47_sign.
Print Assumptions C47_exact_for_linear_volume.
Print Assumptions C70_Cp_minus_Cv.
Print Assumptions C70_gruneisen.
Print Assumptions C70_ratio.
Print Assumptions C70_order.
