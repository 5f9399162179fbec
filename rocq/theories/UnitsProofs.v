From Coq Require Import String Ascii List Bool Reals Lra Lia Arith.
From Verif Require Import Py UnitsModel UnitsSpec.
Import ListNotations.
Open Scope string_scope.
Open Scope R_scope.

(** ** Lower-casing *)
Lemma lower_ascii_idem a : lower_ascii (lower_ascii a) = lower_ascii a.
Proof.
  destruct a as [b0 b1 b2 b3 b4 b5 b6 b7].
  destruct b0, b1, b2, b3, b4, b5, b6, b7; reflexivity.
Qed.

Lemma lower_idem s : lower (lower s) = lower s.
Proof. induction s; simpl; [reflexivity|]. now rewrite lower_ascii_idem, IHs. Qed.

(** ** Generic consequences of [converts] *)
Section Generic.
Variable t : unit_table.
Variable conv : R -> string -> string -> option R.
Hypothesis Hc : converts t conv.
Hypothesis Hp : positive_table t.

Lemma si_inj d x y : 0 < fst d -> si d x = si d y -> x = y.
Proof.
  unfold si. intros H E.
  apply Rmult_eq_reg_l with (fst d); lra.
Qed.

Lemma conv_some x u v y :
  conv x u v = Some y ->
  exists du dv, meaning t (lower u) = Some du /\ meaning t (lower v) = Some dv
                /\ si dv y = si du x.
Proof.
  intros E. specialize (Hc x u v).
  destruct (meaning t (lower u)) as [du|]; [|congruence].
  destruct (meaning t (lower v)) as [dv|]; [|congruence].
  destruct Hc as [y' [E' S]]. exists du, dv. split; [reflexivity|].
  split; [reflexivity|]. congruence.
Qed.

Lemma conv_compute x u v du dv :
  meaning t (lower u) = Some du -> meaning t (lower v) = Some dv ->
  exists y, conv x u v = Some y /\ si dv y = si du x.
Proof. intros E1 E2. specialize (Hc x u v). now rewrite E1, E2 in Hc. Qed.

Lemma conv_self x u y : conv x u u = Some y -> y = x.
Proof.
  intros E. destruct (conv_some _ _ _ _ E) as (du & dv & E1 & E2 & S).
  rewrite E1 in E2. injection E2 as <-. eapply si_inj; [|exact S]. eapply Hp; eauto.
Qed.

Lemma conv_back x u v y : conv x u v = Some y -> conv y v u = Some x.
Proof.
  intros E. destruct (conv_some _ _ _ _ E) as (du & dv & E1 & E2 & S).
  destruct (conv_compute y v u dv du E2 E1) as [z [Ez Sz]].
  rewrite Ez. f_equal. apply si_inj with du; [eapply Hp; eauto|congruence].
Qed.

Lemma conv_path x u v w y : conv x u v = Some y -> conv y v w = conv x u w.
Proof.
  intros E. destruct (conv_some _ _ _ _ E) as (du & dv & E1 & E2 & S).
  destruct (meaning t (lower w)) as [dw|] eqn:E3.
  - destruct (conv_compute y v w dv dw E2 E3) as [z [Ez Sz]].
    destruct (conv_compute x u w du dw E1 E3) as [z' [Ez' Sz']].
    rewrite Ez, Ez'. f_equal. apply si_inj with dw; [eapply Hp; eauto|congruence].
  - pose proof (Hc y v w) as A. pose proof (Hc x u w) as B.
    rewrite E2, E3 in A. rewrite E1, E3 in B. congruence.
Qed.

Lemma conv_defined x u v :
  (exists y, conv x u v = Some y) <->
  (meaning t (lower u) <> None /\ meaning t (lower v) <> None).
Proof.
  split.
  - intros [y E]. destruct (conv_some _ _ _ _ E) as (du & dv & E1 & E2 & S).
    rewrite E1, E2. split; discriminate.
  - intros [A B]. destruct (meaning t (lower u)) as [du|] eqn:E1; [|congruence].
    destruct (meaning t (lower v)) as [dv|] eqn:E2; [|congruence].
    destruct (conv_compute x u v du dv E1 E2) as [y [E _]]. eauto.
Qed.

Lemma conv_case x u u' v v' :
  lower u = lower u' -> lower v = lower v' -> conv x u v = conv x u' v'.
Proof.
  intros A B. pose proof (Hc x u v) as E. pose proof (Hc x u' v') as E'.
  rewrite <- A, <- B in E'.
  destruct (meaning t (lower u)) as [du|] eqn:E1; [|congruence].
  destruct (meaning t (lower v)) as [dv|] eqn:E2; [|congruence].
  destruct E as [y [Ey Sy]], E' as [y' [Ey' Sy']]. rewrite Ey, Ey'. f_equal.
  apply si_inj with dv; [eapply Hp; eauto|congruence].
Qed.

Lemma conv_increasing x x' u v y y' :
  x < x' -> conv x u v = Some y -> conv x' u v = Some y' -> y < y'.
Proof.
  intros L E E'.
  destruct (conv_some _ _ _ _ E) as (du & dv & E1 & E2 & S).
  destruct (conv_some _ _ _ _ E') as (du' & dv' & E1' & E2' & S').
  rewrite E1 in E1'. rewrite E2 in E2'. injection E1' as <-. injection E2' as <-.
  assert (P1 := Hp _ _ E1). assert (P2 := Hp _ _ E2). unfold si in *.
  assert (fst du * x < fst du * x') by (apply Rmult_lt_compat_l; assumption).
  assert (fst dv * y < fst dv * y') by lra.
  eapply Rmult_lt_reg_l; eauto.
Qed.

(** Differences scale by a factor that depends only on the units. *)
Lemma conv_affine u v :
  meaning t (lower u) <> None -> meaning t (lower v) <> None ->
  exists k, 0 < k /\ forall x x' y y',
    conv x u v = Some y -> conv x' u v = Some y' -> y' - y = k * (x' - x).
Proof.
  intros A B.
  destruct (meaning t (lower u)) as [du|] eqn:E1; [|congruence].
  destruct (meaning t (lower v)) as [dv|] eqn:E2; [|congruence].
  assert (P1 := Hp _ _ E1). assert (P2 := Hp _ _ E2).
  exists (fst du / fst dv). split; [now apply Rdiv_lt_0_compat|].
  intros x x' y y' E E'.
  destruct (conv_compute x u v _ _ E1 E2) as (z & Ez & S).
  destruct (conv_compute x' u v _ _ E1 E2) as (z' & Ez' & S').
  rewrite E in Ez; rewrite E' in Ez'. injection Ez as <-. injection Ez' as <-.
  unfold si in *. apply Rmult_eq_reg_l with (fst dv); [|lra].
  field_simplify; [|lra]. nra.
Qed.

Definition no_offset := forall n d, meaning t n = Some d -> snd d = 0.

Lemma conv_linear u v :
  no_offset -> meaning t (lower u) <> None -> meaning t (lower v) <> None ->
  exists k, 0 < k /\ forall x, conv x u v = Some (k * x).
Proof.
  intros Z A B.
  destruct (meaning t (lower u)) as [du|] eqn:E1; [|congruence].
  destruct (meaning t (lower v)) as [dv|] eqn:E2; [|congruence].
  assert (P1 := Hp _ _ E1). assert (P2 := Hp _ _ E2).
  assert (Z1 := Z _ _ E1). assert (Z2 := Z _ _ E2).
  exists (fst du / fst dv). split; [now apply Rdiv_lt_0_compat|].
  intros x. destruct (conv_compute x u v _ _ E1 E2) as (y & Ey & S).
  rewrite Ey. f_equal. unfold si in S. rewrite Z1, Z2 in S.
  apply Rmult_eq_reg_l with (fst dv); [|lra]. field_simplify; lra.
Qed.
End Generic.

(** ** Each converter meets the specification *)
(** Reduce the test of a concrete name against literal lists. *)
Ltac crunch :=
  unfold mem; cbn [existsb meaning];
  repeat match goal with
  | |- context [String.eqb ?a ?b] =>
      match a with
      | String _ _ => let e := eval compute in (String.eqb a b) in
                      change (String.eqb a b) with e
      | _ => fail
      end
  end; cbn [orb].

Ltac split_name k :=
  repeat match goal with
  | |- context [String.eqb k ?n] =>
      destruct (String.eqb_spec k n); [subst k; crunch|]; cbn [orb]
  end.

Definition to_si (t : unit_table) (x : R) (s : string) (f : R -> string -> option R) (g : R) : Prop :=
  match meaning t (lower s) with
  | Some d => exists y, f x s = Some y /\ g * y = si d x
  | None => f x s = None
  end.

Definition from_si (t : unit_table) (x : R) (s : string) (f : R -> string -> option R) (g : R) : Prop :=
  match meaning t (lower s) with
  | Some d => exists y, f x s = Some y /\ si d y = g * x
  | None => f x s = None
  end.

Lemma compose_si t to from g :
  (forall x s, to_si t x s to g) -> (forall x s, from_si t x s from g) ->
  converts t (fun v a b => match to v a with None => None | Some e => from e b end).
Proof.
  intros A B x u v. specialize (A x u). unfold to_si in A.
  destruct (meaning t (lower u)) as [du|].
  - destruct A as (e & E & S). specialize (B e v). unfold from_si in B. rewrite E.
    destruct (meaning t (lower v)) as [dv|]; [|exact B].
    destruct B as (y & Ey & Sy). exists y. split; [exact Ey|congruence].
  - now rewrite A.
Qed.

Ltac solve_one :=
  try reflexivity; try (eexists; split; [reflexivity|]; unfold si; simpl;
    unfold zero_Celsius, kilo, mega, giga, tera, gbar, mbar, kbar, bar; simpl; try lra; try (field; lra)).

Ltac solve_unit s :=
  unfold mem; generalize (lower_idem s); generalize (lower s);
  let k := fresh "k" in intro k; let Hk := fresh "Hk" in intro Hk;
  cbn [existsb meaning]; split_name k; try discriminate Hk; solve_one.

Lemma temperature_converts : converts temperature_units convert_temperature.
Proof.
  apply (compose_si temperature_units to_kelvin from_kelvin 1).
  - intros x s. unfold to_si, to_kelvin, temperature_units. solve_unit s.
  - intros x s. unfold from_si, from_kelvin, temperature_units. solve_unit s.
Qed.

Lemma energy_converts K : positive_constants K -> converts (energy_units K) (convert_energy K).
Proof.
  intros (h1 & h2 & h3 & h4 & h5 & h6 & h7).
  apply (compose_si (energy_units K) (to_hartree K) (from_hartree K) (Ha_J K)).
  - intros x s. unfold to_si, to_hartree, energy_units. solve_unit s.
  - intros x s. unfold from_si, from_hartree, energy_units. solve_unit s.
Qed.

Lemma pressure_converts : converts pressure_units convert_pressure.
Proof.
  apply (compose_si pressure_units to_pascal from_pascal 1).
  - intros x s. unfold to_si, to_pascal, pressure_units. solve_unit s.
  - intros x s. unfold from_si, from_pascal, pressure_units. solve_unit s.
Qed.

Lemma frequency_converts K : positive_constants K -> converts (frequency_units K) (convert_frequency K).
Proof.
  intros (h1 & h2 & h3 & h4 & h5 & h6 & h7).
  apply (compose_si (frequency_units K) (to_wavenumber K) (from_wavenumber K) (100 * c_ms K)).
  - intros x s. unfold to_si, to_wavenumber, frequency_units. solve_unit s.
  - intros x s. unfold from_si, from_wavenumber, frequency_units. solve_unit s.
Qed.

Lemma length_converts K : positive_constants K -> converts (length_units K) (convert_lenght K).
Proof.
  intros (h1 & h2 & h3 & h4 & h5 & h6 & h7).
  apply (compose_si (length_units K) (to_metre K) (from_metre K) 1).
  - intros x s. unfold to_si, to_metre, length_units. solve_unit s.
  - intros x s. unfold from_si, from_metre, length_units. solve_unit s.
Qed.

Lemma volume_converts K : positive_constants K -> converts (volume_units K) (convert_volume K).
Proof.
  intros (h1 & h2 & h3 & h4 & h5 & h6 & h7).
  apply (compose_si (volume_units K) (to_metre3 K) (from_metre3 K) 1).
  - intros x s. unfold to_si, to_metre3, volume_units. solve_unit s.
  - intros x s. unfold from_si, from_metre3, volume_units. solve_unit s.
Qed.

(** ** Tables are positive; all but temperature have no offset *)
Ltac table_pos :=
  let n := fresh "n" in let d := fresh "d" in
  intros n d; cbn [meaning];
  repeat (destruct (String.eqb n _); [let E := fresh in intro E; injection E as <-; simpl; try lra; try (apply Rdiv_lt_0_compat; lra); try nra|]);
  discriminate.

Lemma cube_pos x : 0 < x -> 0 < x ^ 3.
Proof. intros; apply pow_lt; assumption. Qed.

Lemma temperature_pos : positive_table temperature_units.
Proof. unfold temperature_units; table_pos. Qed.
Lemma energy_pos K : positive_constants K -> positive_table (energy_units K).
Proof. intros (h1 & h2 & h3 & h4 & h5 & h6 & h7). unfold energy_units; table_pos. Qed.
Lemma pressure_pos : positive_table pressure_units.
Proof. unfold pressure_units; table_pos. Qed.
Lemma frequency_pos K : positive_constants K -> positive_table (frequency_units K).
Proof. intros (h1 & h2 & h3 & h4 & h5 & h6 & h7). unfold frequency_units; table_pos. Qed.
Lemma length_pos K : positive_constants K -> positive_table (length_units K).
Proof. intros (h1 & h2 & h3 & h4 & h5 & h6 & h7). unfold length_units; table_pos. Qed.
Lemma volume_pos K : positive_constants K -> positive_table (volume_units K).
Proof.
  intros (h1 & h2 & h3 & h4 & h5 & h6 & h7).
  pose proof (cube_pos _ h5); pose proof (cube_pos _ h6). unfold volume_units.
  intros n d; cbn [meaning].
  repeat (destruct (String.eqb n _); [intro E; injection E as <-; simpl in *; lra|]). discriminate.
Qed.

Ltac table_zero :=
  let n := fresh "n" in let d := fresh "d" in
  intros n d; cbn [meaning];
  repeat (destruct (String.eqb n _); [let E := fresh in intro E; injection E as <-; reflexivity|]);
  discriminate.
Lemma energy_zero K : no_offset (energy_units K). Proof. unfold energy_units; table_zero. Qed.
Lemma pressure_zero : no_offset pressure_units. Proof. unfold pressure_units; table_zero. Qed.
Lemma frequency_zero K : no_offset (frequency_units K). Proof. unfold frequency_units; table_zero. Qed.
Lemma length_zero K : no_offset (length_units K). Proof. unfold length_units; table_zero. Qed.
Lemma volume_zero K : no_offset (volume_units K). Proof. unfold volume_units; table_zero. Qed.

(** ** energy/volume <-> pressure *)
Lemma e2p_energy_spec K s :
  match meaning (ep_energy_units K) (lower s) with
  | Some d => e2p_energy K s = Some (Mul (fst d)) /\ p2e_energy K s = Some (Div (fst d))
  | None => e2p_energy K s = None /\ p2e_energy K s = None
  end.
Proof.
  unfold e2p_energy, p2e_energy, ep_energy_units, mem. generalize (lower s); intro k.
  cbn [existsb meaning]. split_name k; split; reflexivity.
Qed.

Lemma e2p_volume_spec K s :
  match meaning (ep_volume_units K) (lower s) with
  | Some d => e2p_volume K s = Some (Div (fst d)) /\ p2e_volume K s = Some (Mul (fst d))
  | None => e2p_volume K s = None /\ p2e_volume K s = None
  end.
Proof.
  unfold e2p_volume, p2e_volume, ep_volume_units, mem. generalize (lower s); intro k.
  cbn [existsb meaning]. split_name k; split; reflexivity.
Qed.

Lemma e2p_pressure_spec s :
  match meaning pressure_units (lower s) with
  | Some d => e2p_pressure s = Some (Div (fst d)) /\ p2e_pressure s = Some (Mul (fst d))
  | None => e2p_pressure s = None /\ p2e_pressure s = None
  end.
Proof.
  unfold e2p_pressure, p2e_pressure, pressure_units, mem. generalize (lower s); intro k.
  cbn [existsb meaning].
  split_name k; split; try reflexivity; cbn [fst]; do 2 f_equal;
  unfold kilo, mega, giga, tera, gbar, mbar, kbar, bar; simpl; lra.
Qed.

Lemma ep_energy_pos K : positive_constants K -> positive_table (ep_energy_units K).
Proof. intros (h1 & h2 & h3 & h4 & h5 & h6 & h7). unfold ep_energy_units; table_pos. Qed.
Lemma ep_volume_pos K : positive_constants K -> positive_table (ep_volume_units K).
Proof.
  intros (h1 & h2 & h3 & h4 & h5 & h6 & h7).
  pose proof (cube_pos _ h5); pose proof (cube_pos _ h6). unfold ep_volume_units.
  intros n d; cbn [meaning].
  repeat (destruct (String.eqb n _); [intro E; injection E as <-; simpl in *; lra|]). discriminate.
Qed.

Lemma e2p_value K x es vs ps :
  energy_to_pressure K x es vs ps =
  match meaning (ep_energy_units K) (lower es), meaning (ep_volume_units K) (lower vs),
        meaning pressure_units (lower ps) with
  | Some e, Some v, Some p => Some (x * fst e / fst v / fst p)
  | _, _, _ => None
  end.
Proof.
  unfold energy_to_pressure, e2p_steps.
  pose proof (e2p_energy_spec K es) as A. pose proof (e2p_volume_spec K vs) as B.
  pose proof (e2p_pressure_spec ps) as C.
  destruct (meaning (ep_energy_units K) (lower es)) as [[e e0]|]; destruct A as [A A'];
  destruct (meaning (ep_volume_units K) (lower vs)) as [[v v0]|]; destruct B as [B B'];
  destruct (meaning pressure_units (lower ps)) as [[p p0]|]; destruct C as [C C'];
  rewrite ?A, ?B, ?C, ?A', ?B', ?C'; reflexivity.
Qed.

Lemma p2e_value K x es vs ps :
  pressure_to_energy K x es vs ps =
  match meaning (ep_energy_units K) (lower es), meaning (ep_volume_units K) (lower vs),
        meaning pressure_units (lower ps) with
  | Some e, Some v, Some p => Some (x * fst p * fst v / fst e)
  | _, _, _ => None
  end.
Proof.
  unfold pressure_to_energy, p2e_steps.
  pose proof (e2p_energy_spec K es) as A. pose proof (e2p_volume_spec K vs) as B.
  pose proof (e2p_pressure_spec ps) as C.
  destruct (meaning (ep_energy_units K) (lower es)) as [[e e0]|]; destruct A as [A A'];
  destruct (meaning (ep_volume_units K) (lower vs)) as [[v v0]|]; destruct B as [B B'];
  destruct (meaning pressure_units (lower ps)) as [[p p0]|]; destruct C as [C C'];
  rewrite ?A, ?B, ?C, ?A', ?B', ?C'; reflexivity.
Qed.
