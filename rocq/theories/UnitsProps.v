(** Property theorems C01-C05 (unit conversions). *)
From Coq Require Import String List Reals Bool Lra Lia.
From Verif Require Import Py UnitsModel UnitsSpec UnitsProofs UnitsHeapModel UnitsHeapProofs.
Import ListNotations.
Open Scope string_scope.
Open Scope list_scope.
Open Scope R_scope.

(** CODATA-2018-like constants: the hypothesis on the constants is satisfiable. *)
Definition codata : constants :=
  {| N_A := 602214076 * 10 ^ 15; eV_J := 1602176634 / 10 ^ 28; Ha_J := 43597447222 / 10 ^ 28;
     Ry_J := 21798723611 / 10 ^ 28; Angstrom_m := 100001495 / 10 ^ 18;
     Bohr_m := 529177210903 / 10 ^ 22; c_ms := 299792458 |}.
Example codata_positive : positive_constants codata.
Proof. unfold positive_constants, codata; simpl. repeat split; lra. Qed.

(** ** C01 *)

(** Every converter is defined exactly between the units of its table and
    preserves the SI value. *)
Theorem C01_preserves_SI_value :
  converts temperature_units convert_temperature /\
  converts pressure_units convert_pressure /\
  (forall K, positive_constants K ->
     converts (energy_units K) (convert_energy K) /\
     converts (frequency_units K) (convert_frequency K) /\
     converts (length_units K) (convert_lenght K) /\
     converts (volume_units K) (convert_volume K)).
Proof.
  split; [exact temperature_converts|]. split; [exact pressure_converts|].
  intros K H. auto using energy_converts, frequency_converts, length_converts, volume_converts.
Qed.

(** 212 F is 373.15 K, 1 GPa is 10 kbar. *)
Example C01_boiling : convert_temperature 212 "Fahrenheit" "K" = Some 373.15.
Proof. unfold convert_temperature, to_kelvin, from_kelvin; simpl. f_equal. unfold zero_Celsius. lra. Qed.
Example C01_gpa_kbar : convert_pressure 1 "GPa" "kbar" = Some 10.
Proof. unfold convert_pressure, to_pascal, from_pascal; simpl. f_equal. unfold giga, kbar. lra. Qed.

(** Identity, inverse and composition laws. *)
Definition groupoid (conv : R -> string -> string -> option R) : Prop :=
  (forall x u y, conv x u u = Some y -> y = x) /\
  (forall x u v y, conv x u v = Some y -> conv y v u = Some x) /\
  (forall x u v w y, conv x u v = Some y -> conv y v w = conv x u w).

Theorem C01_groupoid :
  groupoid convert_temperature /\ groupoid convert_pressure /\
  (forall K, positive_constants K ->
     groupoid (convert_energy K) /\ groupoid (convert_frequency K) /\
     groupoid (convert_lenght K) /\ groupoid (convert_volume K)).
Proof.
  assert (G : forall t conv, converts t conv -> positive_table t -> groupoid conv).
  { intros t conv A B. repeat split; intros.
    - eapply conv_self; eauto.
    - eapply conv_back; eauto.
    - eapply conv_path; eauto. }
  split; [exact (G _ _ temperature_converts temperature_pos)|].
  split; [exact (G _ _ pressure_converts pressure_pos)|].
  intros K H.
  split; [exact (G _ _ (energy_converts K H) (energy_pos K H))|].
  split; [exact (G _ _ (frequency_converts K H) (frequency_pos K H))|].
  split; [exact (G _ _ (length_converts K H) (length_pos K H))|].
  exact (G _ _ (volume_converts K H) (volume_pos K H)).
Qed.
Example C01_groupoid_used : exists y,
  convert_energy codata 3 "Ha" "kJ/mol" = Some y /\ convert_energy codata y "kJ/mol" "Ha" = Some 3.
Proof.
  destruct C01_groupoid as (_ & _ & G). destruct (G codata codata_positive) as [(_ & B & _) _].
  eexists. split; [reflexivity|]. apply B. reflexivity.
Qed.

(** ** C02 *)

Definition recognises (names : list string) (conv : R -> string -> string -> option R) : Prop :=
  (forall x u v, (exists y, conv x u v = Some y) <-> (In (lower u) names /\ In (lower v) names)) /\
  (forall x u u' v v', lower u = lower u' -> lower v = lower v' -> conv x u v = conv x u' v').

Lemma meaning_In t n : meaning t n <> None <-> In n (map fst t).
Proof.
  induction t as [|[m d] t IH]; simpl; [split; congruence|].
  destruct (String.eqb_spec n m).
  - subst. split; [auto|intros _; discriminate].
  - rewrite IH. split; intros; [auto|]. destruct H; [congruence|auto].
Qed.

Theorem C02_names :
  recognises ["k"; "kelvin"; "c"; "celsius"; "°c"; "f"; "fahrenheit"; "r"; "rankine"] convert_temperature /\
  recognises ["pa"; "kpa"; "mpa"; "gpa"; "bar"; "kbar"; "mbar"; "gbar"] convert_pressure /\
  (forall K, positive_constants K ->
     recognises ["ha"; "ev"; "electron volt"; "ry"; "kj/mol"; "kjmol"] (convert_energy K) /\
     recognises ["hz"; "thz"; "cm^-1"] (convert_frequency K) /\
     recognises ["m"; "metre"; "a"; "angstrom"; "bohr"] (convert_lenght K) /\
     recognises ["m"; "metre"; "a"; "angstrom"; "bohr"] (convert_volume K)).
Proof.
  assert (G : forall t conv, converts t conv -> positive_table t -> recognises (map fst t) conv).
  { intros t conv A B. split; intros.
    - rewrite (conv_defined _ _ A), !meaning_In. reflexivity.
    - eapply conv_case; eauto. }
  split; [exact (G _ _ temperature_converts temperature_pos)|].
  split; [exact (G _ _ pressure_converts pressure_pos)|].
  intros K H.
  split; [exact (G _ _ (energy_converts K H) (energy_pos K H))|].
  split; [exact (G _ _ (frequency_converts K H) (frequency_pos K H))|].
  split; [exact (G _ _ (length_converts K H) (length_pos K H))|].
  exact (G _ _ (volume_converts K H) (volume_pos K H)).
Qed.

(** The documented names (units.py:121-124) are not all accepted. *)
Definition documented_energy_names : list string :=
  ["hartree"; "ha"; "electron volt"; "ev"; "rydberg"; "ry"; "kj/mol"; "kjmol"].
Theorem C02_documented_energy_names_refuted :
  ~ (forall K x u v, positive_constants K -> In u documented_energy_names ->
       In v documented_energy_names -> exists y, convert_energy K x u v = Some y).
Proof.
  intros H. destruct (H codata 1 "hartree" "ha" codata_positive) as [y E]; simpl; auto.
  unfold convert_energy, to_hartree in E. simpl in E. discriminate.
Qed.
(** energy_to_pressure does accept them. *)
Theorem C02_energy_to_pressure_names K x es vs ps :
  (exists y, energy_to_pressure K x es vs ps = Some y) <->
  In (lower es) ["hartree"; "ha"; "electron volt"; "ev"; "rydberg"; "ry"] /\
  In (lower vs) ["angstrom"; "a"; "a^3"; "bohr"; "bohr^3"] /\
  In (lower ps) ["pa"; "kpa"; "mpa"; "gpa"; "bar"; "kbar"; "mbar"; "gbar"].
Proof.
  rewrite e2p_value.
  change (In (lower es) _) with (In (lower es) (map fst (ep_energy_units K))).
  change (In (lower vs) _) with (In (lower vs) (map fst (ep_volume_units K))).
  change (In (lower ps) _) with (In (lower ps) (map fst pressure_units)).
  rewrite <- !meaning_In.
  destruct (meaning (ep_energy_units K) (lower es)), (meaning (ep_volume_units K) (lower vs)),
           (meaning pressure_units (lower ps));
  split; intros H; try (destruct H as [y H]; discriminate H);
  try (repeat split; discriminate); try (destruct H as (A & B & C); congruence); eauto.
Qed.

(** ** C03 *)

Definition order_preserving (conv : R -> string -> string -> option R) : Prop :=
  forall x x' u v y y', conv x u v = Some y -> conv x' u v = Some y' -> (x < x' <-> y < y').
Definition linear (conv : R -> string -> string -> option R) : Prop :=
  forall u v x0 y0, conv x0 u v = Some y0 ->
    exists k, 0 < k /\ forall x, conv x u v = Some (k * x).
Definition affine (conv : R -> string -> string -> option R) : Prop :=
  forall u v x0 y0, conv x0 u v = Some y0 ->
    exists k, 0 < k /\ forall x, conv x u v = Some (y0 + k * (x - x0)).

Lemma order_gen t conv : converts t conv -> positive_table t -> order_preserving conv.
Proof.
  intros A B x x' u v y y' E E'. split; intros L.
  - eapply conv_increasing; eauto.
  - eapply (conv_increasing _ _ A B y y' v u); eauto using conv_back.
Qed.
Lemma linear_gen t conv : converts t conv -> positive_table t -> no_offset t -> linear conv.
Proof.
  intros A B Z u v x0 y0 E.
  assert (D : meaning t (lower u) <> None /\ meaning t (lower v) <> None)
    by (apply (conv_defined _ _ A x0); eauto).
  destruct D. eapply conv_linear; eauto.
Qed.
Lemma affine_gen t conv : converts t conv -> positive_table t -> affine conv.
Proof.
  intros A B u v x0 y0 E.
  assert (D : meaning t (lower u) <> None /\ meaning t (lower v) <> None)
    by (apply (conv_defined _ _ A x0); eauto).
  destruct (conv_affine _ _ A B u v (proj1 D) (proj2 D)) as (k & P & F).
  exists k. split; [exact P|]. intros x.
  destruct (proj2 (conv_defined _ _ A x u v) D) as [y Ey].
  rewrite Ey. f_equal. pose proof (F _ _ _ _ E Ey). lra.
Qed.

Theorem C03_order_and_linearity :
  order_preserving convert_temperature /\ affine convert_temperature /\
  order_preserving convert_pressure /\ linear convert_pressure /\
  (forall K, positive_constants K ->
     (order_preserving (convert_energy K) /\ linear (convert_energy K)) /\
     (order_preserving (convert_frequency K) /\ linear (convert_frequency K)) /\
     (order_preserving (convert_lenght K) /\ linear (convert_lenght K)) /\
     (order_preserving (convert_volume K) /\ linear (convert_volume K))).
Proof.
  split; [exact (order_gen _ _ temperature_converts temperature_pos)|].
  split; [exact (affine_gen _ _ temperature_converts temperature_pos)|].
  split; [exact (order_gen _ _ pressure_converts pressure_pos)|].
  split; [exact (linear_gen _ _ pressure_converts pressure_pos pressure_zero)|].
  intros K H. split; [|split; [|split]]; split.
  - exact (order_gen _ _ (energy_converts K H) (energy_pos K H)).
  - exact (linear_gen _ _ (energy_converts K H) (energy_pos K H) (energy_zero K)).
  - exact (order_gen _ _ (frequency_converts K H) (frequency_pos K H)).
  - exact (linear_gen _ _ (frequency_converts K H) (frequency_pos K H) (frequency_zero K)).
  - exact (order_gen _ _ (length_converts K H) (length_pos K H)).
  - exact (linear_gen _ _ (length_converts K H) (length_pos K H) (length_zero K)).
  - exact (order_gen _ _ (volume_converts K H) (volume_pos K H)).
  - exact (linear_gen _ _ (volume_converts K H) (volume_pos K H) (volume_zero K)).
Qed.
Example C03_instance : exists k, 0 < k /\ forall x, convert_frequency codata x "THz" "cm^-1" = Some (k * x).
Proof.
  destruct C03_order_and_linearity as (_ & _ & _ & _ & G).
  destruct (G codata codata_positive) as (_ & (_ & L) & _).
  eapply (L "THz" "cm^-1" 1). reflexivity.
Qed.

(** ** C04 *)

Theorem C04_inverse K : positive_constants K ->
  forall x es vs ps y,
    (energy_to_pressure K x es vs ps = Some y -> pressure_to_energy K y es vs ps = Some x) /\
    (pressure_to_energy K x es vs ps = Some y -> energy_to_pressure K y es vs ps = Some x).
Proof.
  intros H x es vs ps y.
  pose proof (ep_energy_pos K H) as Pe. pose proof (ep_volume_pos K H) as Pv.
  pose proof pressure_pos as Pp.
  rewrite !e2p_value, !p2e_value.
  destruct (meaning (ep_energy_units K) (lower es)) as [e|] eqn:E1; [|split; discriminate].
  destruct (meaning (ep_volume_units K) (lower vs)) as [v|] eqn:E2; [|split; discriminate].
  destruct (meaning pressure_units (lower ps)) as [p|] eqn:E3; [|split; discriminate].
  specialize (Pe _ _ E1). specialize (Pv _ _ E2). specialize (Pp _ _ E3).
  split; intros E; injection E as <-; f_equal; field; lra.
Qed.

(** The result is the SI energy density re-expressed: value * (J per energy
    unit) / (m^3 per volume unit) = result * (Pa per pressure unit). *)
Theorem C04_SI_density K : positive_constants K ->
  forall x es vs ps y, energy_to_pressure K x es vs ps = Some y ->
  exists e v p, meaning (ep_energy_units K) (lower es) = Some e /\
    meaning (ep_volume_units K) (lower vs) = Some v /\ meaning pressure_units (lower ps) = Some p /\
    si e x / si v 1 = si p y.
Proof.
  intros H x es vs ps y. rewrite e2p_value.
  pose proof (ep_volume_pos K H) as Pv. pose proof pressure_pos as Pp.
  destruct (meaning (ep_energy_units K) (lower es)) as [e|] eqn:E1; [|discriminate].
  destruct (meaning (ep_volume_units K) (lower vs)) as [v|] eqn:E2; [|discriminate].
  destruct (meaning pressure_units (lower ps)) as [p|] eqn:E3; [|discriminate].
  specialize (Pv _ _ E2). specialize (Pp _ _ E3). intros E. injection E as <-.
  exists e, v, p. repeat split.
  assert (Z1 : snd e = 0) by (revert E1; unfold ep_energy_units; cbn [meaning];
    repeat (destruct (String.eqb _ _); [intro E; injection E as <-; reflexivity|]); discriminate).
  assert (Z2 : snd v = 0) by (revert E2; unfold ep_volume_units; cbn [meaning];
    repeat (destruct (String.eqb _ _); [intro E; injection E as <-; reflexivity|]); discriminate).
  assert (Z3 : snd p = 0) by (exact (pressure_zero _ _ E3)).
  unfold si. rewrite Z1, Z2, Z3. field. lra.
Qed.

(** Agreement with the scalar converters: change of pressure, energy or
    volume unit commutes. *)
Theorem C04_agrees_with_converters K : positive_constants K ->
  forall x es vs ps y, energy_to_pressure K x es vs ps = Some y ->
   (forall ps' z, convert_pressure y ps ps' = Some z -> energy_to_pressure K x es vs ps' = Some z) /\
   (forall es' z w, convert_energy K x es es' = Some z -> energy_to_pressure K z es' vs ps = Some w -> w = y) /\
   (forall vs' z w, convert_volume K 1 vs vs' = Some z -> energy_to_pressure K (x / z) es vs' ps = Some w -> w = y).
Proof.
  intros H x es vs ps y E.
  assert (S := H). destruct S as (h1 & h2 & h3 & h4 & h5 & h6 & h7).
  split; [|split].
  - intros ps' z C.
    destruct (conv_some _ _ pressure_converts _ _ _ _ C) as (d & d' & E1 & E2 & S).
    rewrite e2p_value in *. rewrite E1 in E. rewrite E2.
    destruct (meaning (ep_energy_units K) (lower es)) as [e|]; [|discriminate].
    destruct (meaning (ep_volume_units K) (lower vs)) as [v|] eqn:Ev; [|discriminate].
    injection E as <-. f_equal. unfold si in S.
    pose proof (pressure_zero _ _ E1) as Z1. pose proof (pressure_zero _ _ E2) as Z2.
    pose proof (pressure_pos _ _ E1) as P1. pose proof (pressure_pos _ _ E2) as P2.
    pose proof (ep_volume_pos K H _ _ Ev) as P3.
    rewrite Z1, Z2 in S. apply Rmult_eq_reg_l with (fst d'); [|lra].
    rewrite Rplus_0_r in S. rewrite Rplus_0_r in S. rewrite S. field. lra.
  - intros es' z w C D.
    destruct (conv_some _ _ (energy_converts K H) _ _ _ _ C) as (d & d' & E1 & E2 & S).
    assert (Q : forall n d e, meaning (energy_units K) n = Some d ->
              meaning (ep_energy_units K) n = Some e -> d = e).
    { intros n a b. unfold energy_units, ep_energy_units. cbn [meaning].
      repeat match goal with |- context [String.eqb n ?m] =>
        destruct (String.eqb_spec n m); [subst n; simpl; congruence|] end. discriminate. }
    rewrite e2p_value in *.
    destruct (meaning (ep_energy_units K) (lower es)) as [e|] eqn:F1; [|discriminate].
    destruct (meaning (ep_energy_units K) (lower es')) as [e'|] eqn:F2; [|discriminate].
    destruct (meaning (ep_volume_units K) (lower vs)) as [v|] eqn:Ev; [|discriminate].
    destruct (meaning pressure_units (lower ps)) as [p|] eqn:Ep; [|discriminate].
    pose proof (Q _ _ _ E1 F1); pose proof (Q _ _ _ E2 F2); subst e e'.
    pose proof (energy_zero K _ _ E1) as Z1. pose proof (energy_zero K _ _ E2) as Z2.
    unfold si in S. rewrite Z1, Z2, !Rplus_0_r in S.
    injection E as <-. injection D as <-.
    rewrite (Rmult_comm z), (Rmult_comm x), S. reflexivity.
  - intros vs' z w C D.
    destruct (conv_some _ _ (volume_converts K H) _ _ _ _ C) as (d & d' & E1 & E2 & S).
    assert (Q : forall n d e, meaning (volume_units K) n = Some d ->
              meaning (ep_volume_units K) n = Some e -> d = e).
    { intros n a b. unfold volume_units, ep_volume_units. cbn [meaning].
      repeat match goal with |- context [String.eqb n ?m] =>
        destruct (String.eqb_spec n m); [subst n; simpl; congruence|] end. discriminate. }
    rewrite e2p_value in *.
    destruct (meaning (ep_energy_units K) (lower es)) as [e|] eqn:F1; [|discriminate].
    destruct (meaning (ep_volume_units K) (lower vs)) as [v|] eqn:Ev; [|discriminate].
    destruct (meaning (ep_volume_units K) (lower vs')) as [v'|] eqn:Ev'; [|discriminate].
    destruct (meaning pressure_units (lower ps)) as [p|] eqn:Ep; [|discriminate].
    pose proof (Q _ _ _ E1 Ev); pose proof (Q _ _ _ E2 Ev'); subst v v'.
    pose proof (volume_zero K _ _ E1) as Z1. pose proof (volume_zero K _ _ E2) as Z2.
    pose proof (ep_volume_pos K H _ _ Ev) as P1. pose proof (ep_volume_pos K H _ _ Ev') as P2.
    pose proof (pressure_pos _ _ Ep) as P3.
    unfold si in S. rewrite Z1, Z2, !Rplus_0_r, Rmult_1_r in S.
    injection E as <-. injection D as <-. rewrite <- S.
    assert (z <> 0) by (intro Zz; rewrite Zz, Rmult_0_r in S; lra).
    field. lra.
Qed.
Example C04_instance : exists y, energy_to_pressure codata (1/1000) "eV" "Angstrom" "GPa" = Some y
  /\ pressure_to_energy codata y "eV" "Angstrom" "GPa" = Some (1/1000).
Proof.
  eexists. split; [reflexivity|].
  apply (C04_inverse codata codata_positive). reflexivity.
Qed.

(** ** C05 *)

(** Specification: an array the caller can see keeps its contents. *)
Definition untouched (h h' : heap) : Prop :=
  forall r a, nth_error h r = Some a -> nth_error h' r = Some a.

Theorem C05_converters_never_write K h v old new :
  untouched h (fst (convert_temperature_h h v old new)) /\
  untouched h (fst (convert_energy_h K h v old new)) /\
  untouched h (fst (convert_pressure_h h v old new)) /\
  untouched h (fst (convert_frequency_h K h v old new)) /\
  untouched h (fst (convert_lenght_h K h v old new)) /\
  untouched h (fst (convert_volume_h K h v old new)).
Proof. repeat split; apply convert_preserves. Qed.

(** In-place converters on a float array: the caller's array itself holds the
    result; on an unknown unit name it holds the partially scaled data. No
    other array changes. *)
Theorem C05_in_place_effect K h r a es vs ps :
  nth_error h r = Some a -> dt a = DFloat ->
  exists h', energy_to_pressure_h K h (Nd r) es vs ps =
      (h', match energy_to_pressure K 0 es vs ps with Some _ => Ret r | None => Unsupported end)
    /\ (forall r', r' <> r -> nth_error h' r' = nth_error h r')
    /\ (forall i x y, nth_error (elems a) i = Some x -> energy_to_pressure K x es vs ps = Some y ->
          exists a', nth_error h' r = Some a' /\ nth_error (elems a') i = Some y)
    /\ (energy_to_pressure K 0 es vs ps = None -> forall e, e2p_energy K es = Some e ->
          e2p_volume K vs = None ->
          exists a', nth_error h' r = Some a' /\ elems a' = map (apply_scaling e) (elems a)).
Proof.
  intros E D. unfold energy_to_pressure_h. cbn [asarray].
  destruct (run_inplace_float (e2p_steps K es vs ps) h r a E D) as (h' & R1 & R2 & R3 & R4).
  exists h'. rewrite R1. split; [|split; [exact R4|split]].
  - unfold energy_to_pressure, UnitsModel.done.
    rewrite run_scalings_all. destruct (forallb _ _); reflexivity.
  - intros i x y Ex Ey. eexists. split; [exact R2|]. simpl.
    rewrite nth_error_map, Ex. simpl. f_equal.
    unfold energy_to_pressure, UnitsModel.done in Ey.
    destruct (snd (run_scalings (e2p_steps K es vs ps) x)); [|discriminate]. injection Ey as <-; reflexivity.
  - intros _ e He Hv. eexists. split; [exact R2|]. simpl. unfold e2p_steps. rewrite He, Hv. reflexivity.
Qed.

(** Same for the inverse converter. *)
Theorem C05_in_place_effect_inverse K h r a es vs ps :
  nth_error h r = Some a -> dt a = DFloat ->
  exists h', pressure_to_energy_h K h (Nd r) es vs ps =
      (h', match pressure_to_energy K 0 es vs ps with Some _ => Ret r | None => Unsupported end)
    /\ (forall r', r' <> r -> nth_error h' r' = nth_error h r')
    /\ (forall i x y, nth_error (elems a) i = Some x -> pressure_to_energy K x es vs ps = Some y ->
          exists a', nth_error h' r = Some a' /\ nth_error (elems a') i = Some y).
Proof.
  intros E D. unfold pressure_to_energy_h. cbn [asarray].
  destruct (run_inplace_float (p2e_steps K es vs ps) h r a E D) as (h' & R1 & R2 & R3 & R4).
  exists h'. rewrite R1. split; [|split; [exact R4|]].
  - unfold pressure_to_energy, UnitsModel.done.
    rewrite run_scalings_all. destruct (forallb _ _); reflexivity.
  - intros i x y Ex Ey. eexists. split; [exact R2|]. simpl.
    rewrite nth_error_map, Ex. simpl. f_equal.
    unfold pressure_to_energy, UnitsModel.done in Ey.
    destruct (snd (run_scalings (p2e_steps K es vs ps) x)); [|discriminate].
    injection Ey as <-; reflexivity.
Qed.

(** The array a converter returns holds the converted values; between base
    units it is the caller's own array object, not a copy. *)
Definition returns_converted (conv : R -> string -> string -> option R)
    (conv_h : heap -> arg -> string -> string -> heap * outcome) : Prop :=
  forall h r a u v, nth_error h r = Some a ->
    match conv 0 u v with
    | None => snd (conv_h h (Nd r) u v) = Unsupported
    | Some _ => exists h' r' a', conv_h h (Nd r) u v = (h', Ret r') /\
         nth_error h' r' = Some a' /\
         map Some (elems a') = map (fun x => conv x u v) (elems a)
    end.
Theorem C05_returned_values K :
  returns_converted convert_temperature convert_temperature_h /\
  returns_converted (convert_energy K) (convert_energy_h K) /\
  returns_converted convert_pressure convert_pressure_h /\
  returns_converted (convert_frequency K) (convert_frequency_h K) /\
  returns_converted (convert_lenght K) (convert_lenght_h K) /\
  returns_converted (convert_volume K) (convert_volume_h K).
Proof.
  split; [exact (convert_h_values ["kelvin"; "k"] to_kelvin from_kelvin
    ltac:(intros x s; base_unit s) ltac:(intros x s; base_unit s))|].
  split; [exact (convert_h_values ["Hartree"; "Ha"; "ha"] (to_hartree K) (from_hartree K)
    ltac:(intros x s; base_unit s) ltac:(intros x s; base_unit s))|].
  split; [exact (convert_h_values ["pa"] to_pascal from_pascal
    ltac:(intros x s; base_unit s) ltac:(intros x s; base_unit s))|].
  split; [exact (convert_h_values ["cm^-1"] (to_wavenumber K) (from_wavenumber K)
    ltac:(intros x s; base_unit s) ltac:(intros x s; base_unit s))|].
  split; [exact (convert_h_values ["metre"; "m"] (to_metre K) (from_metre K)
    ltac:(intros x s; base_unit s) ltac:(intros x s; base_unit s))|].
  exact (convert_h_values ["metre"; "m"] (to_metre3 K) (from_metre3 K)
    ltac:(intros x s; base_unit s) ltac:(intros x s; base_unit s)).
Qed.
Theorem C05_base_units_alias : forall h r,
  convert_temperature_h h (Nd r) "K" "kelvin" = (h, Ret r) /\
  convert_pressure_h h (Nd r) "Pa" "pa" = (h, Ret r) /\
  forall K, convert_energy_h K h (Nd r) "Ha" "ha" = (h, Ret r).
Proof. intros; repeat split. Qed.

(** Sequences are copied first and integer arrays are refused: no effect. *)
Theorem C05_in_place_other_arguments K h es vs ps :
  (forall a, untouched h (fst (energy_to_pressure_h K h (Seq a) es vs ps)) /\
             untouched h (fst (pressure_to_energy_h K h (Seq a) es vs ps))) /\
  (forall r a, nth_error h r = Some a -> dt a = DInt ->
     fst (energy_to_pressure_h K h (Nd r) es vs ps) = h /\
     fst (pressure_to_energy_h K h (Nd r) es vs ps) = h).
Proof.
  assert (S : forall l a, untouched h (fst (run_inplace l (h ++ [a]) (length h)))).
  { intros l a.
    assert (E : nth_error (h ++ [a]) (length h) = Some a)
      by (rewrite nth_error_app2, Nat.sub_diag by lia; reflexivity).
    destruct (dt a) eqn:D.
    - destruct (run_inplace_float l _ _ _ E D) as (h' & R1 & R2 & R3 & R4).
      rewrite R1. intros r b Eb. simpl.
      assert (r < length h)%nat by (apply nth_error_Some; congruence).
      rewrite R4 by lia. rewrite nth_error_app1 by lia. exact Eb.
    - destruct (run_inplace_int l _ _ _ E D) as [o R1]. rewrite R1. simpl. apply preserves_app. }
  split.
  - intros a. unfold energy_to_pressure_h, pressure_to_energy_h. cbn [asarray alloc]. split; apply S.
  - intros r a E D. unfold energy_to_pressure_h, pressure_to_energy_h. cbn [asarray alloc].
    destruct (run_inplace_int (e2p_steps K es vs ps) _ _ _ E D) as [o ->].
    destruct (run_inplace_int (p2e_steps K es vs ps) _ _ _ E D) as [o' ->]. auto.
Qed.

(** A call that raises can already have changed the caller's data. *)
Theorem C05_failed_call_untouched_refuted :
  ~ (forall K h v es vs ps, positive_constants K ->
       snd (energy_to_pressure_h K h v es vs ps) = Unsupported ->
       untouched h (fst (energy_to_pressure_h K h v es vs ps))).
Proof.
  intros H.
  pose (h := [{| dt := DFloat; elems := [1] |}]).
  specialize (H codata h (Nd 0%nat) "ha" "litre" "GPa" codata_positive eq_refl 0%nat _ eq_refl).
  simpl in H. injection H as H. lra.
Qed.
Theorem C05_success_untouched_refuted :
  ~ (forall K h v es vs ps r, positive_constants K ->
       snd (pressure_to_energy_h K h v es vs ps) = Ret r ->
       untouched h (fst (pressure_to_energy_h K h v es vs ps))).
Proof.
  intros H.
  pose (h := [{| dt := DFloat; elems := [1] |}]).
  specialize (H codata h (Nd 0%nat) "ha" "a" "GPa" 0%nat codata_positive eq_refl 0%nat _ eq_refl).
  simpl in H. injection H as H. unfold giga in H. lra.
Qed.
Example C05_instance : exists h', 
  energy_to_pressure_h codata [{| dt := DFloat; elems := [2; 3] |}] (Nd 0%nat) "ha" "bohr" "GPa" = (h', Ret 0%nat).
Proof. eexists. reflexivity. Qed.

Print Assumptions C01_preserves_SI_value.
Print Assumptions C01_groupoid.
Print Assumptions C02_names.
Print Assumptions C02_documented_energy_names_refuted.
Print Assumptions C02_energy_to_pressure_names.
Print Assumptions C03_order_and_linearity.
Print Assumptions C04_inverse.
Print Assumptions C04_SI_density.
Print Assumptions C04_agrees_with_converters.
Print Assumptions C05_converters_never_write.
Print Assumptions C05_in_place_effect.
Print Assumptions C05_in_place_effect_inverse.
Print Assumptions C05_returned_values.
Print Assumptions C05_base_units_alias.
Print Assumptions C05_in_place_other_arguments.
Print Assumptions C05_failed_call_untouched_refuted.
Print Assumptions C05_success_untouched_refuted.
