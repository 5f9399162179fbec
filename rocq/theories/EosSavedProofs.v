(** For C104: the numbers saved by a run which minimises by equation of state are the
    ones the fit returned for F + PV. *)
From Coq Require Import Reals String List Bool Arith Lia Lra.
From Coquelicot Require Import Coquelicot.
From Verif Require Import Py ParModel StatMechModel StatMechSpec StatMechProofs StatMechProps ThermoModel ThermoProps
  UnitsModel UnitsSpec UnitsProofs UnitsProps PolyModel PolyProps PolyfitProofs EvEosModel EvEosProps
  GridModel GridProps QhaRunModel QhaRunProps QhaRunProps2 QhaEqProps.
Import ListNotations.
Open Scope string_scope.
Open Scope list_scope.
Open Scope R_scope.

From Verif Require Import QhaFitProps.
Section Saved.
Variable K : constants.
Variables hplanck kboltzmann : R.
Hypothesis PK : positive_constants K.
Variable fit : fit_function.
Variable roots : list R -> list (R * R).
Variable eos_fit : string -> nat -> (nat -> R) -> (nat -> R) -> outcome (R * R * R * R).
Variables kieffer_Cv kieffer_S : nat -> R -> R.
Variable s : settings.
Variable x : input.
Notation run := (run K hplanck kboltzmann fit roots eos_fit kieffer_Cv kieffer_S s x).
Notation ha := (ha_run K hplanck kboltzmann s x).
Lemma eos_saved tl pl r h de dv dp :
  qha_scheme s = "td" \/ qha_scheme s = "freq" -> minimization s = "eos" -> run tl pl = Ok r -> ha tl = Ok h ->
  meaning (ep_energy_units K) (lower (eunit s)) = Some de ->
  meaning (ep_volume_units K) (lower (vunit s)) = Some dv ->
  meaning pressure_units (lower (punit s)) = Some dp ->
  forall i j, (i < List.length tl)%nat -> (j < List.length pl)%nat ->
  exists p0 e0 k0 Y, p0 * fst de / fst dv = fst dp * nth j pl 0 /\ KT r i j * fst dp = k0 * fst de / fst dv /\
    (forall k, (k < nvol x)%nat -> Y k = ha_F h i k + p0 * volume x k) /\ eos_fit (eos_function s) (nvol x) (volume x) Y = Ok (e0, k0, Kp r i j, VT r i j).
Proof.
  intros SC MI E HA Me Mv Mp i j Hi Hj.
  destruct (run_inv _ _ _ _ _ _ _ _ _ _ _ _ _ E) as (ct & ph & r0 & Ect & Eph & _ & Etd & Efr & Ef).
  destruct (ha_open K hplanck kboltzmann s x tl h ct ph Ect Eph HA) as (ce & Ece & _ & _ & _ & _ & _ & _ & A7).
  destruct (finalize_keeps _ _ _ _ _ _ _ _ Ef) as (_ & _ & _ & _ & _ & _ & _ & -> & -> & -> & _).
  assert (PO : poly_on s = false) by (unfold poly_on; rewrite MI; reflexivity).
  assert (EO : eos_on s = true) by (unfold eos_on; rewrite MI; reflexivity).
  assert (EM : forall Fe pars v k k1, (forall q, (q < nvol x)%nat -> Fe q = ha_F h i q) ->
    minimize_volume K fit roots eos_fit s x (volume x) Fe (nth j pl 0) pars = Ok (v, k, k1) ->
    exists p0 e0 k0 Y, p0 * fst de / fst dv = fst dp * nth j pl 0 /\ k * fst dp = k0 * fst de / fst dv /\
      (forall k, (k < nvol x)%nat -> Y k = ha_F h i k + p0 * volume x k) /\ eos_fit (eos_function s) (nvol x) (volume x) Y = Ok (e0, k0, k1, v)).
  { intros Fe pars v k k1 EF M. unfold minimize_volume in M. rewrite PO, EO in M.
    apply bind_ok in M as ((((e0 & k0) & k1') & v0) & E1 & M). apply bind_ok in M as (kp & E2 & M). injection M as <- <- <-.
    unfold find_eos_minimum in E1. apply bind_ok in E1 as (p0 & Ep & E1).
    unfold set_target_pressure in Ep. rewrite p2e_value, Me, Mv, Mp in Ep. injection Ep as <-.
    unfold e2p in E2. rewrite e2p_value, Me, Mv, Mp in E2. injection E2 as <-.
    pose proof (ep_energy_pos K PK _ _ Me) as Pe. pose proof (ep_volume_pos K PK _ _ Mv) as Pv. pose proof (pressure_pos _ _ Mp) as Pp.
    set (p0 := nth j pl 0 * fst dp * fst dv / fst de) in *. eexists p0, e0, k0, _.
    split; [unfold p0; field; lra|]. split; [field; lra|]. split; [|exact E1]. intros q Hq. cbv beta. rewrite EF by exact Hq. ring. }
  destruct SC as [SC|SC].
  - specialize (Etd SC). remember (fst (fine_grid 5 (5/100))) as gg eqn:Egg. remember (snd (fine_grid 5 (5/100))) as cc eqn:Ecc.
    unfold run_thermodynamics_interpolation in Etd. rewrite Ece in Etd. cbn [bind] in Etd.
    apply bind_ok in Etd as (vk & Evk & Etd). rewrite PO in Etd. cbn [bind] in Etd. injection Etd as <-. cbn [scheme_results VT KT Kp fst snd].
    pose proof (table_ok _ _ _ _ _ Evk i j Hi Hj) as MV. cbv beta in MV. destruct (vk i j) as [[v k] k1]. cbn [fst snd].
    eapply EM; [|exact MV]. intros q Hq. rewrite A7. cbv beta. field.
  - specialize (Efr SC). remember (fst (fine_grid 5 (5/100))) as gg eqn:Egg. remember (snd (fine_grid 5 (5/100))) as cc eqn:Ecc.
    unfold run_frequency_interpolation in Efr. rewrite Ece in Efr. cbn [bind] in Efr.
    apply bind_ok in Efr as (vk & Evk & Efr). rewrite PO in Efr. cbn [bind] in Efr. injection Efr as <-. cbn [scheme_results VT KT Kp fst snd].
    pose proof (table_ok _ _ _ _ _ Evk i j Hi Hj) as MV. cbv beta in MV. destruct (vk i j) as [[v k] k1]. cbn [fst snd].
    eapply EM; [|exact MV]. intros q Hq. rewrite A7. reflexivity.
Qed.
End Saved.
