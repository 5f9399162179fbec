(** C91: the unit conversions in double precision. *)
From Coq Require Import String List Reals ZArith Bool Lra Lia.
From Flocq Require Import Core.
From Verif Require Import Py StatMechModel UnitsModel UnitsSpec UnitsProofs UnitsProps GridFloatModel GridFloatProofs GridFloatProps HoFloatModel HoFloatSpec HoFloatProofs UnitsFloatModel UnitsFloatSpec UnitsFloatProofs.
Import ListNotations.
Open Scope string_scope.
Open Scope R_scope.

Lemma near_scale c x e k : near x e k -> near (c * x) (c * e) k.
Proof.
  unfold near. intros H. replace (c * x - c * e) with (c * (x - e)) by ring. rewrite !Rabs_mult. pose proof (Rabs_pos c).
  replace (k * u * (Rabs c * Rabs e)) with (Rabs c * (k * u * Rabs e)) by ring. apply Rmult_le_compat_l; lra.
Qed.
Lemma tracks_moderate v : moderate v -> tracks (Fin v) v 0 150.
Proof. intros H. exists v. split; [reflexivity|]. split; [apply near_refl|exact H]. Qed.

(** From the two stages to the converter. *)
Section Converter.
Variables (t : unit_table) (exact : R -> string -> string -> option R) (conv : float_converter) (k : R) (d : Z).
Hypothesis H1 : converts t exact.
Hypothesis H2 : positive_table t.
Hypothesis H3 : no_offset t.
Hypothesis K : 0 <= k <= 40.
Hypothesis D : (0 <= d <= 340)%Z.
Hypothesis T : forall r v l n a b, tracks r v l n -> 0 <= l <= 100 -> (n + d <= 900)%Z ->
  match exact v a b with
  | Some e => exists r', conv r a b = Some r' /\ tracks r' e (l + k) (n + d)
  | None => conv r a b = None
  end.
Lemma faithful_gen : faithful t k conv.
Proof.
  intros v a b da db A B M. destruct (conv_compute t exact H1 v a b da db A B) as (y & E & S).
  pose proof (T (Fin v) v 0 150 a b (tracks_moderate v M) ltac:(lra) ltac:(lia)) as Q. rewrite E in Q.
  destruct Q as (r & R1 & x & -> & N & _). exists x. split; [exact R1|]. rewrite <- S. unfold si. rewrite (H3 _ _ B), !Rplus_0_r. apply near_scale.
  now replace k with (0 + k) by ring.
Qed.
Lemma comes_back_gen : comes_back (2 * k) conv.
Proof.
  intros v a b r M E. pose proof (T (Fin v) v 0 150 a b (tracks_moderate v M) ltac:(lra) ltac:(lia)) as Q.
  destruct (exact v a b) as [e|] eqn:EE; [|congruence]. destruct Q as (r' & R1 & Q). rewrite E in R1. injection R1 as <-.
  pose proof (T r e (0 + k) (150 + d) b a Q ltac:(lra) ltac:(lia)) as B. rewrite (conv_back t exact H1 H2 _ _ _ _ EE) in B.
  destruct B as (r2 & R2 & y & -> & N & _). exists y. split; [exact R2|]. now replace (2 * k) with (0 + k + k) by ring.
Qed.
End Converter.


Definition steps (exact : R -> string -> string -> option R) (conv : float_converter) (k : R) (d : Z) : Prop :=
  forall r v l n a b, tracks r v l n -> 0 <= l <= 100 -> (n + d <= 900)%Z ->
  match exact v a b with
  | Some e => exists r', conv r a b = Some r' /\ tracks r' e (l + k) (n + d)
  | None => conv r a b = None
  end.
Lemma steps_gen to to_f from from_f dk dn dk' dn' d :
  stage to to_f dk dn -> stage from from_f dk' dn' -> 0 <= dk <= 50 -> (0 <= dn')%Z -> dk + dk' <= 32 -> (dn + dn' <= d)%Z ->
  steps (fun v a b => match to v a with None => None | Some e => from e b end) (fun r a b => through (to_f r a) (fun t => from_f t b)) 32 d.
Proof.
  intros A B H1 H2 H3 H4 r v l n a b T L N. pose proof (stage_pair _ _ _ _ _ _ _ _ A B H1 H2 r v l n a b T L ltac:(lia)) as Q.
  destruct (to v a) as [e|]; [destruct (from e b)|]; try exact Q.
  destruct Q as (r' & E & Q). exists r'. split; [exact E|]. eapply tracks_weaken; [exact Q|lra|lia].
Qed.
Section Steps.
Variable C : fconstants.
Hypothesis PL : plausible C.
Lemma energy_steps : steps (convert_energy (kc C)) (convert_energy_f C) 32 340.
Proof. apply (steps_gen _ _ _ _ _ _ _ _ _ (s_to_hartree C PL) (s_from_hartree C PL)); lra || lia. Qed.
Lemma pressure_steps : steps convert_pressure convert_pressure_f 32 340.
Proof. apply (steps_gen _ _ _ _ _ _ _ _ _ s_to_pascal s_from_pascal); lra || lia. Qed.
Lemma frequency_steps : steps (convert_frequency (kc C)) (convert_frequency_f C) 32 340.
Proof. apply (steps_gen _ _ _ _ _ _ _ _ _ (s_to_wavenumber C PL) (s_from_wavenumber C PL)); lra || lia. Qed.
Lemma length_steps : steps (convert_lenght (kc C)) (convert_lenght_f C) 32 340.
Proof. apply (steps_gen _ _ _ _ _ _ _ _ _ (s_to_metre C PL) (s_from_metre C PL)); lra || lia. Qed.
Lemma volume_steps : steps (convert_volume (kc C)) (convert_volume_f C) 32 340.
Proof. apply (steps_gen _ _ _ _ _ _ _ _ _ (s_to_metre3 C PL) (s_from_metre3 C PL)); lra || lia. Qed.
End Steps.

(** Every converter without an offset is as accurate as the arithmetic allows: the
    SI value changes by at most 32 units of roundoff (3.6e-15). *)
Theorem C91_accuracy C : plausible C ->
  faithful (energy_units (kc C)) 32 (convert_energy_f C) /\
  faithful pressure_units 32 convert_pressure_f /\
  faithful (frequency_units (kc C)) 32 (convert_frequency_f C) /\
  faithful (length_units (kc C)) 32 (convert_lenght_f C) /\
  faithful (volume_units (kc C)) 32 (convert_volume_f C).
Proof.
  intros PL. pose proof (plausible_positive C PL) as PC. split; [|split; [|split; [|split]]].
  - apply (faithful_gen _ _ _ _ 340 (energy_converts _ PC) (energy_zero _)); [first [lra|lia]..|now apply energy_steps].
  - apply (faithful_gen _ _ _ _ 340 pressure_converts pressure_zero); [first [lra|lia]..|exact pressure_steps].
  - apply (faithful_gen _ _ _ _ 340 (frequency_converts _ PC) (frequency_zero _)); [first [lra|lia]..|now apply frequency_steps].
  - apply (faithful_gen _ _ _ _ 340 (length_converts _ PC) (length_zero _)); [first [lra|lia]..|now apply length_steps].
  - apply (faithful_gen _ _ _ _ 340 (volume_converts _ PC) (volume_zero _)); [first [lra|lia]..|now apply volume_steps].
Qed.
(** There and back: 64 units of roundoff (7.2e-15). *)
Theorem C91_there_and_back C : plausible C ->
  comes_back 64 (convert_energy_f C) /\ comes_back 64 convert_pressure_f /\ comes_back 64 (convert_frequency_f C) /\
  comes_back 64 (convert_lenght_f C) /\ comes_back 64 (convert_volume_f C).
Proof.
  intros PL. pose proof (plausible_positive C PL) as PC. replace 64 with (2 * 32) by lra. split; [|split; [|split; [|split]]].
  - apply (comes_back_gen _ _ _ 32 340 (energy_converts _ PC) (energy_pos _ PC)); [first [lra|lia]..|now apply energy_steps].
  - apply (comes_back_gen _ _ _ 32 340 pressure_converts pressure_pos); [first [lra|lia]..|exact pressure_steps].
  - apply (comes_back_gen _ _ _ 32 340 (frequency_converts _ PC) (frequency_pos _ PC)); [first [lra|lia]..|now apply frequency_steps].
  - apply (comes_back_gen _ _ _ 32 340 (length_converts _ PC) (UnitsProofs.length_pos _ PC)); [first [lra|lia]..|now apply length_steps].
  - apply (comes_back_gen _ _ _ 32 340 (volume_converts _ PC) (volume_pos _ PC)); [first [lra|lia]..|now apply volume_steps].
Qed.

Lemma Some_inj {A} (a b : A) : Some a = Some b -> a = b.
Proof. congruence. Qed.
Section Densities.
Variable C : fconstants.
Hypothesis PL : plausible C.
Ltac by_name s := unfold mem; generalize (lower s); let k := fresh "k" in intro k; cbn [existsb meaning]; split_name k; try reflexivity; eexists; (split; [reflexivity|]); cbn [fst snd]; (split; [|split; [|reflexivity]]).
Lemma joule_meaning s :
  match meaning (ep_energy_units (kc C)) (lower s) with
  | Some d => exists q, joule_f C s = Some q /\ tracks q (fst d) 0 80 /\ 0 < fst d /\ snd d = 0
  | None => joule_f C s = None
  end.
Proof.
  unfold joule_f, ep_energy_units. destruct PL. by_name s; auto using t_usual, usual_pos.
Qed.
Lemma metre3_meaning s :
  match meaning (ep_volume_units (kc C)) (lower s) with
  | Some d => exists q, metre3_f C s = Some q /\ tracks q (fst d) 2 120 /\ 0 < fst d /\ snd d = 0
  | None => metre3_f C s = None
  end.
Proof.
  unfold metre3_f, ep_volume_units. destruct PL. by_name s; first [now apply t_cube|apply pow_lt; now apply length_pos].
Qed.
Lemma pascal_meaning s :
  match meaning pressure_units (lower s) with
  | Some d => exists q, pascal_f s = Some q /\ tracks q (fst d) 0 50 /\ 0 < fst d /\ snd d = 0
  | None => pascal_f s = None
  end.
Proof.
  unfold pascal_f, pressure_units. by_name s; try lra;
  try (replace (10 ^ 3) with kilo by (unfold kilo; lra); apply t_kilo); try (replace (10 ^ 6) with mega by (unfold mega; lra); apply t_mega);
  try (replace (10 ^ 9) with giga by (unfold giga; lra); apply t_giga); try (replace (10 ^ 5) with bar by (unfold bar; lra); apply t_bar);
  try (replace (10 ^ 8) with kbar by (unfold kbar; lra); apply t_kbar); try (replace (10 ^ 11) with mbar by (unfold mbar; lra); apply t_mbar);
  try (replace (10 ^ 14) with gbar by (unfold gbar; lra); apply t_gbar); apply t_1.
Qed.
(** Energies per volume to pressures and back, likewise. *)
Theorem C91_energy_density v es vs ps e w p : moderate v ->
  meaning (ep_energy_units (kc C)) (lower es) = Some e -> meaning (ep_volume_units (kc C)) (lower vs) = Some w ->
  meaning pressure_units (lower ps) = Some p ->
  (exists x, energy_to_pressure_f C (Fin v) es vs ps = Some (Fin x) /\ near (si p x) (si e v / si w 1) 32) /\
  (exists x, pressure_to_energy_f C (Fin v) es vs ps = Some (Fin x) /\ near (si e x) (si p v * si w 1) 32).
Proof.
  intros M E V Q. pose proof (joule_meaning es) as A. rewrite E in A. destruct A as (qe & Ae & Te & Pe & Ze).
  pose proof (metre3_meaning vs) as A. rewrite V in A. destruct A as (qv & Av & Tv & Pv & Zv).
  pose proof (pascal_meaning ps) as A. rewrite Q in A. destruct A as (qp & Ap & Tp & Pp & Zp).
  pose proof (tracks_moderate v M) as T. unfold si. rewrite Ze, Zv, Zp, !Rplus_0_r, Rmult_1_r. split.
  - assert (F : tracks (npdiv (npdiv (fmul (Fin v) qe) qv) qp) (v * fst e / fst w / fst p) 32 900).
    { eapply tracks_weaken; [eapply tracks_div; [eapply tracks_div; [eapply tracks_mul; [exact T|exact Te|..]|exact Tv|..]|exact Tp|..]|..]; lra || lia. }
    destruct F as (x & X & N & _). exists x. split; [unfold energy_to_pressure_f; rewrite Ae, Av, Ap; cbn [through]; now rewrite X|].
    replace (fst e * v / fst w) with (fst p * (v * fst e / fst w / fst p)) by (field; lra). rewrite ?Ze, ?Zv, ?Zp, ?Rplus_0_r. now apply near_scale.
  - assert (F : tracks (npdiv (fmul (fmul (Fin v) qp) qv) qe) (v * fst p * fst w / fst e) 32 900).
    { eapply tracks_weaken; [eapply tracks_div; [eapply tracks_mul; [eapply tracks_mul; [exact T|exact Tp|..]|exact Tv|..]|exact Te|..]|..]; lra || lia. }
    destruct F as (x & X & N & _). exists x. split; [unfold pressure_to_energy_f; rewrite Ae, Av, Ap; cbn [through]; now rewrite X|].
    replace (fst p * v * fst w) with (fst e * (v * fst p * fst w / fst e)) by (field; lra). rewrite ?Ze, ?Zv, ?Zp, ?Rplus_0_r. now apply near_scale.
Qed.
(** There and back. *)
Theorem C91_density_back v es vs ps : moderate v ->
  (forall r, energy_to_pressure_f C (Fin v) es vs ps = Some r -> exists y, pressure_to_energy_f C r es vs ps = Some (Fin y) /\ near y v 64) /\
  (forall r, pressure_to_energy_f C (Fin v) es vs ps = Some r -> exists y, energy_to_pressure_f C r es vs ps = Some (Fin y) /\ near y v 64).
Proof.
  intros M. unfold energy_to_pressure_f, pressure_to_energy_f. pose proof (joule_meaning es) as A. pose proof (metre3_meaning vs) as B. pose proof (pascal_meaning ps) as D.
  destruct (meaning (ep_energy_units (kc C)) (lower es)) as [e|]; [|rewrite A; split; intros r; cbn [through]; [|destruct (pascal_f ps), (metre3_f C vs); cbn [through]]; discriminate].
  destruct A as (qe & Ae & Te & Pe & Ze).
  destruct (meaning (ep_volume_units (kc C)) (lower vs)) as [w|]; [|rewrite Ae, B; split; intros r; cbn [through]; [|destruct (pascal_f ps); cbn [through]]; discriminate].
  destruct B as (qv & Av & Tv & Pv & Zv).
  destruct (meaning pressure_units (lower ps)) as [p|]; [|rewrite Ae, Av, D; split; intros r; cbn [through]; discriminate].
  destruct D as (qp & Ap & Tp & Pp & Zp). rewrite Ae, Av, Ap. cbn [through]. pose proof (tracks_moderate v M) as T. split; intros r E; apply Some_inj in E; subst r.
  - assert (F : tracks (npdiv (fmul (fmul (npdiv (npdiv (fmul (Fin v) qe) qv) qp) qp) qv) qe) (v * fst e / fst w / fst p * fst p * fst w / fst e) 64 900).
    { eapply tracks_weaken; [eapply tracks_div; [eapply tracks_mul; [eapply tracks_mul; [eapply tracks_div; [eapply tracks_div; [eapply tracks_mul; [exact T|exact Te|..]|exact Tv|..]|exact Tp|..]|exact Tp|..]|exact Tv|..]|exact Te|..]|..]; lra || lia. }
    destruct F as (x & X & N & _). exists x. split; [now rewrite X|]. replace v with (v * fst e / fst w / fst p * fst p * fst w / fst e) at 1 by (field; lra). exact N.
  - assert (F : tracks (npdiv (npdiv (fmul (npdiv (fmul (fmul (Fin v) qp) qv) qe) qe) qv) qp) (v * fst p * fst w / fst e * fst e / fst w / fst p) 64 900).
    { eapply tracks_weaken; [eapply tracks_div; [eapply tracks_div; [eapply tracks_mul; [eapply tracks_div; [eapply tracks_mul; [eapply tracks_mul; [exact T|exact Tp|..]|exact Tv|..]|exact Te|..]|exact Te|..]|exact Tv|..]|exact Tp|..]|..]; lra || lia. }
    destruct F as (x & X & N & _). exists x. split; [now rewrite X|]. replace v with (v * fst p * fst w / fst e * fst e / fst w / fst p) at 1 by (field; lra). exact N.
Qed.
End Densities.

(** Temperatures: the offsets make the error absolute. In kelvin it stays below
    64 units of roundoff of |v| + 500. *)
Lemma follows_start v : Rabs v <= b2 800 -> 500 <= Rabs v + 500 <= b2 900 /\ follows (Rabs v + 500) (Fin v) v 0 1.
Proof.
  intros H. pose proof (Rabs_pos v). assert (b2 800 + 500 <= b2 900).
  { apply Rle_trans with (b2 800 + b2 800); [|replace (b2 800 + b2 800) with (b2 1 * b2 800) by (rewrite b2_1; ring); bp].
    apply Rplus_le_compat_l. apply Rle_trans with (b2 9); [|bp]. change 9%Z with (Z.of_nat 9). rewrite b2_nat. simpl. lra. }
  split; [lra|]. exists v. split; [reflexivity|]. rewrite Rminus_diag_eq, Rabs_R0 by reflexivity. lra.
Qed.
Theorem C91_temperature v a b da db : Rabs v <= b2 800 ->
  meaning temperature_units (lower a) = Some da -> meaning temperature_units (lower b) = Some db ->
  exists x, convert_temperature_f (Fin v) a b = Some (Fin x) /\ Rabs (si db x - si da v) <= 64 * u * (Rabs v + 500).
Proof.
  intros H A B. destruct (follows_start v H) as [W T]. destruct (conv_compute _ _ temperature_converts v a b da db A B) as (y & E & S).
  pose proof (temperature_follows _ W (Fin v) v 0 1 a b T ltac:(lra) ltac:(lra)) as Q. rewrite E in Q. destruct Q as (r & R1 & x & -> & N & _).
  exists x. split; [exact R1|]. rewrite <- S. unfold si.
  assert (D : 0 < fst db <= 1).
  { revert B. unfold temperature_units. cbn [meaning]. repeat (destruct (String.eqb _ _); [intro Z; injection Z as <-; cbn [fst]; lra|]). discriminate. }
  replace (fst db * x + snd db - (fst db * y + snd db)) with (fst db * (x - y)) by ring. rewrite Rabs_mult, (Rabs_pos_eq (fst db)) by lra.
  pose proof (Rabs_pos (x - y)). pose proof u_pos. assert (0 <= u * (Rabs v + 500)) by (apply Rmult_le_pos; lra).
  apply Rle_trans with (1 * Rabs (x - y)); [apply Rmult_le_compat_r; lra|]. lra.
Qed.
Theorem C91_temperature_back v a b r : Rabs v <= b2 800 -> convert_temperature_f (Fin v) a b = Some r ->
  exists y, convert_temperature_f r b a = Some (Fin y) /\ Rabs (y - v) <= 260 * u * (Rabs v + 500).
Proof.
  intros H E. destruct (follows_start v H) as [W T].
  pose proof (temperature_follows _ W (Fin v) v 0 1 a b T ltac:(lra) ltac:(lra)) as Q.
  destruct (convert_temperature v a b) as [e|] eqn:EE; [|congruence]. destruct Q as (r' & R1 & Q). rewrite E in R1. injection R1 as <-.
  pose proof (temperature_follows _ W r e _ _ b a Q ltac:(lra) ltac:(lra)) as B. rewrite (conv_back _ _ temperature_converts temperature_pos _ _ _ _ EE) in B.
  destruct B as (r2 & R2 & y & -> & N & _). exists y. split; [exact R2|]. pose proof u_pos. pose proof (Rabs_pos v). assert (0 <= u * (Rabs v + 500)) by (apply Rmult_le_pos; lra). lra.
Qed.

(** * Order, sign, NaN: no bound on the values *)
Definition shape (o : bool) (f : fp -> option fp) : Prop :=
  (forall r, f r = None) \/
  exists g, (forall r, f r = Some (g r)) /\ (forall a b, fle a b -> fle (g a) (g b)) /\ g Nan = Nan /\ (o = true -> forall a, g (fneg a) = fneg (g a)).
Lemma shape_through o f h : shape o f -> shape o h -> shape o (fun r => through (f r) h).
Proof.
  intros [F|(g & F & M & N & O)] H.
  - left. intros r. now rewrite F.
  - destruct H as [H|(g' & H & M' & N' & O')].
    + left. intros r. rewrite F. cbn [through]. apply H.
    + right. exists (fun r => g' (g r)). split; [intros r; rewrite F; cbn [through]; apply H|]. split; [auto|]. split; [congruence|]. intros E a. rewrite O, O' by exact E. reflexivity.
Qed.
Lemma shape_monotone o f : shape o f -> monotone f.
Proof. intros [F|(g & F & M & _)] a b x y L A B; [congruence|]. rewrite F in A, B. injection A as <-. injection B as <-. now apply M. Qed.
Lemma shape_odd f : shape true f -> odd f.
Proof. intros [F|(g & F & _ & _ & O)] a; rewrite !F; cbn [option_map]; [reflexivity|]. now rewrite O. Qed.
Lemma shape_nan o f : shape o f -> keeps_nan f.
Proof. intros [F|(g & F & _ & N & _)] x E; [congruence|]. rewrite F in E. injection E as <-. exact N. Qed.
Lemma shape_id o : shape o (fun r => Some r).
Proof. right. exists (fun r => r). auto. Qed.
Lemma shape_none o : shape o (fun _ => None).
Proof. now left. Qed.
Lemma shape_mul o q : (exists y, q = Fin y /\ 0 < y) -> shape o (fun r => Some (fmul r q)).
Proof. intros (y & -> & H). right. exists (fun r => fmul r (Fin y)). split; [auto|]. split; [intros a b; now apply mul_le|]. split; [reflexivity|]. intros _ a. now apply mul_opp. Qed.
Lemma shape_mul_l o q : (exists y, q = Fin y /\ 0 < y) -> shape o (fun r => Some (fmul q r)).
Proof. intros (y & -> & H). right. exists (fun r => fmul (Fin y) r). split; [auto|]. split; [intros a b; now apply mul_le_l|]. split; [reflexivity|]. intros _ a. now apply mul_opp_l. Qed.
Lemma shape_div o q : (exists y, q = Fin y /\ 0 < y) -> shape o (fun r => Some (npdiv r q)).
Proof.
  intros (y & -> & H). right. exists (fun r => npdiv r (Fin y)). split; [auto|]. split; [intros a b; now apply div_le|]. split; [|intros _ a; now apply div_opp].
  unfold npdiv. cbn [fdiv]. now rewrite (proj1 (pos_b y H)).
Qed.
Lemma shape_add y : shape false (fun r => Some (fadd r (Fin y))).
Proof. right. exists (fun r => fadd r (Fin y)). split; [auto|]. split; [intros a b; apply add_le|]. split; [reflexivity|discriminate]. Qed.
Lemma shape_sub y : shape false (fun r => Some (fsub r (Fin y))).
Proof. right. exists (fun r => fsub r (Fin y)). split; [auto|]. split; [intros a b; apply sub_le|]. split; [reflexivity|discriminate]. Qed.
Lemma shape_weaken f : shape true f -> shape false f.
Proof. intros [F|(g & F & M & N & _)]; [now left|]. right. exists g. repeat split; auto. discriminate. Qed.

Section Shapes.
Variable C : fconstants.
Hypothesis PL : plausible C.
Lemma pos_const y : 0 < y -> exists z, Fin y = Fin z /\ 0 < z. Proof. eauto. Qed.
Lemma pos_tracks r e n : (exists k, 0 <= k <= 100 /\ tracks r e k n) -> 0 < e -> exists y, r = Fin y /\ 0 < y.
Proof. intros (k & K & T) P. apply (tracks_positive r e k n T); lra. Qed.
Ltac pick f := destruct PL; unfold f; repeat match goal with |- context [mem ?a ?b] => destruct (mem a b) end; first [apply shape_id|apply shape_none|idtac].
Lemma cube_positive x c : b2 (-40) <= x <= b2 40 -> near c (x ^ 3) 2 -> exists y, Fin c = Fin y /\ 0 < y.
Proof. intros H N. apply (pos_tracks _ (x ^ 3) 120); [exists 2; split; [lra|now apply t_cube]|]. apply pow_lt. now apply length_pos. Qed.
Lemma ratio_positive a b : usual a -> usual b -> exists y, npdiv (Fin a) (Fin b) = Fin y /\ 0 < y.
Proof.
  intros A B. pose proof (usual_pos _ A). pose proof (usual_pos _ B). apply (pos_tracks _ (a / b) 160); [|now apply Rdiv_lt_0_compat].
  exists 5. split; [lra|]. eapply tracks_weaken; [eapply tracks_div; [apply t_usual, A|apply t_usual, B|..]|..]; lra || lia.
Qed.
Lemma c100_positive a : usual a -> exists y, fmul (Fin a) (Fin 100) = Fin y /\ 0 < y.
Proof.
  intros A. pose proof (usual_pos _ A). apply (pos_tracks _ (a * 100) 90); [|lra]. exists 4. split; [lra|].
  eapply tracks_weaken; [eapply tracks_mul; [apply t_usual, A|apply t_100|..]|..]; lra || lia.
Qed.
Lemma kjmol_positive a b : usual a -> usual b -> exists y, npdiv (npdiv (Fin 1000) (Fin a)) (Fin b) = Fin y /\ 0 < y.
Proof.
  intros A B. pose proof (usual_pos _ A). pose proof (usual_pos _ B). apply (pos_tracks _ (1000 / a / b) 170); [|repeat apply Rdiv_lt_0_compat; lra].
  exists 10. split; [lra|]. eapply tracks_weaken; [eapply tracks_div; [eapply tracks_div; [apply t_1000|apply t_usual, A|..]|apply t_usual, B|..]|..]; lra || lia.
Qed.
Lemma kjmol_positive' a b : usual a -> usual b -> exists y, npdiv (fmul (Fin a) (Fin b)) (Fin 1000) = Fin y /\ 0 < y.
Proof.
  intros A B. pose proof (usual_pos _ A). pose proof (usual_pos _ B). assert (0 < a * b) by (now apply Rmult_lt_0_compat). apply (pos_tracks _ (a * b / 1000) 170); [|lra].
  exists 9. split; [lra|]. eapply tracks_weaken; [eapply tracks_div; [eapply tracks_mul; [apply t_usual, A|apply t_usual, B|..]|apply t_1000|..]|..]; lra || lia.
Qed.
Ltac scalars := unfold kilo, mega, giga, tera, gbar, mbar, kbar, bar; apply pos_const; lra.
Lemma shape_energy a b : shape true (fun r => convert_energy_f C r a b).
Proof.
  apply (shape_through true (fun r => to_hartree_f C r a) (fun e => from_hartree_f C e b)).
  - pick to_hartree_f; apply shape_mul; auto using ratio_positive, kjmol_positive.
  - pick from_hartree_f; apply shape_mul; auto using ratio_positive, kjmol_positive'.
Qed.
Lemma shape_pressure a b : shape true (fun r => convert_pressure_f r a b).
Proof.
  apply (shape_through true (fun r => to_pascal_f r a) (fun e => from_pascal_f e b)).
  - pick to_pascal_f; apply shape_mul; scalars.
  - pick from_pascal_f; apply shape_div; scalars.
Qed.
Lemma shape_frequency a b : shape true (fun r => convert_frequency_f C r a b).
Proof.
  apply (shape_through true (fun r => to_wavenumber_f C r a) (fun e => from_wavenumber_f C e b)).
  - pick to_wavenumber_f; [now apply shape_div, c100_positive|].
    apply (shape_through true (fun r => Some (fmul (Fin tera) r)) (fun r => Some (npdiv r (fmul (Fin (c_ms (kc C))) (Fin 100))))); [apply shape_mul_l; scalars|now apply shape_div, c100_positive].
  - pick from_wavenumber_f; [now apply shape_mul, c100_positive|].
    apply (shape_through true (fun r => Some (fmul r (fmul (Fin (c_ms (kc C))) (Fin 100)))) (fun r => Some (npdiv r (Fin tera)))); [now apply shape_mul, c100_positive|apply shape_div; scalars].
Qed.
Lemma shape_length a b : shape true (fun r => convert_lenght_f C r a b).
Proof.
  apply (shape_through true (fun r => to_metre_f C r a) (fun e => from_metre_f C e b)).
  - pick to_metre_f; apply shape_mul, pos_const; now apply length_pos.
  - pick from_metre_f; apply shape_div, pos_const; now apply length_pos.
Qed.
Lemma shape_volume a b : shape true (fun r => convert_volume_f C r a b).
Proof.
  apply (shape_through true (fun r => to_metre3_f C r a) (fun e => from_metre3_f C e b)).
  - pick to_metre3_f; apply shape_mul; eauto using cube_positive.
  - pick from_metre3_f; apply shape_div; eauto using cube_positive.
Qed.
Lemma joule_positive s q : joule_f C s = Some q -> exists y, q = Fin y /\ 0 < y.
Proof. intros E. pose proof (joule_meaning C PL s) as H. destruct (meaning _ _) as [d|]; [|congruence]. destruct H as (q' & E' & T & P & _). rewrite E in E'. injection E' as <-. apply (pos_tracks _ (fst d) 80); [exists 0; split; [lra|exact T]|exact P]. Qed.
Lemma metre3_positive s q : metre3_f C s = Some q -> exists y, q = Fin y /\ 0 < y.
Proof. intros E. pose proof (metre3_meaning C PL s) as H. destruct (meaning _ _) as [d|]; [|congruence]. destruct H as (q' & E' & T & P & _). rewrite E in E'. injection E' as <-. apply (pos_tracks _ (fst d) 120); [exists 2; split; [lra|exact T]|exact P]. Qed.
Lemma pascal_positive s q : pascal_f s = Some q -> exists y, q = Fin y /\ 0 < y.
Proof. intros E. pose proof (pascal_meaning s) as H. destruct (meaning _ _) as [d|]; [|congruence]. destruct H as (q' & E' & T & P & _). rewrite E in E'. injection E' as <-. apply (pos_tracks _ (fst d) 50); [exists 0; split; [lra|exact T]|exact P]. Qed.
Lemma shape_e2p es vs ps : shape true (fun r => energy_to_pressure_f C r es vs ps).
Proof.
  unfold energy_to_pressure_f. destruct (joule_f C es) as [e|] eqn:E1; [|now left]. destruct (metre3_f C vs) as [w|] eqn:E2; [|now left]. destruct (pascal_f ps) as [p|] eqn:E3; [|now left]. cbn [through].
  apply (shape_through true (fun r => Some (npdiv (fmul r e) w)) (fun r => Some (npdiv r p))); [|apply shape_div; eauto using pascal_positive].
  apply (shape_through true (fun r => Some (fmul r e)) (fun r => Some (npdiv r w))); [apply shape_mul; eauto using joule_positive|apply shape_div; eauto using metre3_positive].
Qed.
Lemma shape_p2e es vs ps : shape true (fun r => pressure_to_energy_f C r es vs ps).
Proof.
  unfold pressure_to_energy_f. destruct (pascal_f ps) as [p|] eqn:E3; [|now left]. destruct (metre3_f C vs) as [w|] eqn:E2; [|now left]. destruct (joule_f C es) as [e|] eqn:E1; [|now left]. cbn [through].
  apply (shape_through true (fun r => Some (fmul (fmul r p) w)) (fun r => Some (npdiv r e))); [|apply shape_div; eauto using joule_positive].
  apply (shape_through true (fun r => Some (fmul r p)) (fun r => Some (fmul r w))); [apply shape_mul; eauto using pascal_positive|apply shape_mul; eauto using metre3_positive].
Qed.
End Shapes.
Lemma shape_temperature a b : shape false (fun r => convert_temperature_f r a b).
Proof.
  assert (S5 : forall y z, 0 < y -> 0 < z -> shape false (fun r => Some (npdiv (fmul r (Fin y)) (Fin z)))).
  { intros y z Y Z. apply (shape_through false (fun r => Some (fmul r (Fin y))) (fun r => Some (npdiv r (Fin z)))); [now apply shape_mul, pos_const|now apply shape_div, pos_const]. }
  apply (shape_through false (fun r => to_kelvin_f r a) (fun e => from_kelvin_f e b)).
  - unfold to_kelvin_f. repeat match goal with |- context [mem ?a ?b] => destruct (mem a b) end; first [apply shape_id|apply shape_none|apply shape_add|idtac].
    + apply (shape_through false (fun r => Some (npdiv (fmul (fsub r (Fin 32)) (Fin 5)) (Fin 9))) (fun r => Some (fadd r zero_C))); [|apply shape_add].
      apply (shape_through false (fun r => Some (fsub r (Fin 32))) (fun r => Some (npdiv (fmul r (Fin 5)) (Fin 9)))); [apply shape_sub|apply S5; lra].
    + apply S5; lra.
  - unfold from_kelvin_f. repeat match goal with |- context [mem ?a ?b] => destruct (mem a b) end; first [apply shape_id|apply shape_none|apply shape_sub|idtac].
    + apply (shape_through false (fun r => Some (npdiv (fmul (fsub r zero_C) (Fin 9)) (Fin 5))) (fun r => Some (fadd r (Fin 32)))); [|apply shape_add].
      apply (shape_through false (fun r => Some (fsub r zero_C)) (fun r => Some (npdiv (fmul r (Fin 9)) (Fin 5)))); [apply shape_sub|apply S5; lra].
    + apply S5; lra.
Qed.

(** Sorted data stay sorted, whatever the values: huge, tiny, infinite. *)
Theorem C91_order C : plausible C -> forall a b es vs ps,
  monotone (fun r => convert_temperature_f r a b) /\ monotone (fun r => convert_energy_f C r a b) /\
  monotone (fun r => convert_pressure_f r a b) /\ monotone (fun r => convert_frequency_f C r a b) /\
  monotone (fun r => convert_lenght_f C r a b) /\ monotone (fun r => convert_volume_f C r a b) /\
  monotone (fun r => energy_to_pressure_f C r es vs ps) /\ monotone (fun r => pressure_to_energy_f C r es vs ps).
Proof.
  intros PL a b es vs ps. split; [exact (shape_monotone _ _ (shape_temperature a b))|].
  split; [exact (shape_monotone _ _ (shape_energy C PL a b))|]. split; [exact (shape_monotone _ _ (shape_pressure C PL a b))|].
  split; [exact (shape_monotone _ _ (shape_frequency C PL a b))|]. split; [exact (shape_monotone _ _ (shape_length C PL a b))|].
  split; [exact (shape_monotone _ _ (shape_volume C PL a b))|]. split; [exact (shape_monotone _ _ (shape_e2p C PL es vs ps))|exact (shape_monotone _ _ (shape_p2e C PL es vs ps))].
Qed.
(** A tension converts to exactly the opposite of the pressure. *)
Theorem C91_sign C : plausible C -> forall a b es vs ps,
  odd (fun r => convert_energy_f C r a b) /\ odd (fun r => convert_pressure_f r a b) /\ odd (fun r => convert_frequency_f C r a b) /\
  odd (fun r => convert_lenght_f C r a b) /\ odd (fun r => convert_volume_f C r a b) /\
  odd (fun r => energy_to_pressure_f C r es vs ps) /\ odd (fun r => pressure_to_energy_f C r es vs ps).
Proof.
  intros PL a b es vs ps. split; [exact (shape_odd _ (shape_energy C PL a b))|]. split; [exact (shape_odd _ (shape_pressure C PL a b))|].
  split; [exact (shape_odd _ (shape_frequency C PL a b))|]. split; [exact (shape_odd _ (shape_length C PL a b))|].
  split; [exact (shape_odd _ (shape_volume C PL a b))|]. split; [exact (shape_odd _ (shape_e2p C PL es vs ps))|exact (shape_odd _ (shape_p2e C PL es vs ps))].
Qed.
(** A missing value (NaN) stays missing. *)
Theorem C91_missing C : plausible C -> forall a b es vs ps,
  keeps_nan (fun r => convert_temperature_f r a b) /\ keeps_nan (fun r => convert_energy_f C r a b) /\
  keeps_nan (fun r => convert_pressure_f r a b) /\ keeps_nan (fun r => convert_frequency_f C r a b) /\
  keeps_nan (fun r => convert_lenght_f C r a b) /\ keeps_nan (fun r => convert_volume_f C r a b) /\
  keeps_nan (fun r => energy_to_pressure_f C r es vs ps) /\ keeps_nan (fun r => pressure_to_energy_f C r es vs ps).
Proof.
  intros PL a b es vs ps. split; [exact (shape_nan _ _ (shape_temperature a b))|].
  split; [exact (shape_nan _ _ (shape_energy C PL a b))|]. split; [exact (shape_nan _ _ (shape_pressure C PL a b))|].
  split; [exact (shape_nan _ _ (shape_frequency C PL a b))|]. split; [exact (shape_nan _ _ (shape_length C PL a b))|].
  split; [exact (shape_nan _ _ (shape_volume C PL a b))|]. split; [exact (shape_nan _ _ (shape_e2p C PL es vs ps))|exact (shape_nan _ _ (shape_p2e C PL es vs ps))].
Qed.

(** * Names *)
Lemma names_gen o t exact (conv : float_converter) k n : converts t exact -> (forall a b, shape o (fun r => conv r a b)) ->
  (forall a b, match exact 0 a b with Some e => exists r', conv (Fin 0) a b = Some r' /\ tracks r' e k n | None => conv (Fin 0) a b = None end) ->
  accepts_names t conv.
Proof.
  intros H S T r a b. assert (E : conv r a b = None <-> conv (Fin 0) a b = None).
  { destruct (S a b) as [F|(g & F & _)]; [now rewrite !F|]. rewrite !F. split; discriminate. }
  rewrite E. specialize (T a b). specialize (H 0 a b). destruct (meaning t (lower a)) as [da|]; [destruct (meaning t (lower b)) as [db|]|].
  - destruct H as (y & E1 & _). rewrite E1 in T. destruct T as (r' & E2 & _). rewrite E2. split; [discriminate|]. intros [X|X]; discriminate X.
  - rewrite H in T. rewrite T. tauto.
  - rewrite H in T. rewrite T. tauto.
Qed.
Lemma moderate_zero : moderate 0. Proof. now left. Qed.
Lemma zero_steps exact conv : steps exact conv 32 340 ->
  forall a b, match exact 0 a b with Some e => exists r', conv (Fin 0) a b = Some r' /\ tracks r' e (0 + 32) (150 + 340) | None => conv (Fin 0) a b = None end.
Proof. intros H a b. apply H; [exact (tracks_moderate 0 moderate_zero)|lra|lia]. Qed.
(** The accepted names are those of the tables, whatever the value. *)
Theorem C91_names C : plausible C ->
  accepts_names temperature_units convert_temperature_f /\ accepts_names (energy_units (kc C)) (convert_energy_f C) /\
  accepts_names pressure_units convert_pressure_f /\ accepts_names (frequency_units (kc C)) (convert_frequency_f C) /\
  accepts_names (length_units (kc C)) (convert_lenght_f C) /\ accepts_names (volume_units (kc C)) (convert_volume_f C).
Proof.
  intros PL. pose proof (plausible_positive C PL) as PC. split; [|split; [|split; [|split; [|split]]]].
  - intros r a b. assert (E : convert_temperature_f r a b = None <-> convert_temperature_f (Fin 0) a b = None).
    { destruct (shape_temperature a b) as [F|(g & F & _)]; [now rewrite !F|]. rewrite !F. split; discriminate. }
    rewrite E. destruct (follows_start 0) as [W T]; [rewrite Rabs_R0; left; apply b2_pos|]. pose proof (temperature_follows _ W _ _ _ _ a b T ltac:(lra) ltac:(lra)) as Q.
    pose proof (temperature_converts 0 a b) as H. destruct (meaning temperature_units (lower a)) as [da|]; [destruct (meaning temperature_units (lower b)) as [db|]|].
    + destruct H as (y & E1 & _). rewrite E1 in Q. destruct Q as (r' & E2 & _). rewrite E2. split; [discriminate|]. intros [X|X]; discriminate X.
    + rewrite H in Q. rewrite Q. tauto.
    + rewrite H in Q. rewrite Q. tauto.
  - exact (names_gen _ _ _ _ _ _ (energy_converts _ PC) (shape_energy C PL) (zero_steps _ _ (energy_steps C PL))).
  - exact (names_gen _ _ _ _ _ _ pressure_converts (shape_pressure C PL) (zero_steps _ _ pressure_steps)).
  - exact (names_gen _ _ _ _ _ _ (frequency_converts _ PC) (shape_frequency C PL) (zero_steps _ _ (frequency_steps C PL))).
  - exact (names_gen _ _ _ _ _ _ (length_converts _ PC) (shape_length C PL) (zero_steps _ _ (length_steps C PL))).
  - exact (names_gen _ _ _ _ _ _ (volume_converts _ PC) (shape_volume C PL) (zero_steps _ _ (volume_steps C PL))).
Qed.

(** * Exact conversions *)
(** From the internal scale to itself nothing is computed. *)
Theorem C91_identity C r a b :
  (In (lower a) ["kelvin"; "k"] -> In (lower b) ["kelvin"; "k"] -> convert_temperature_f r a b = Some r) /\
  (lower a = "ha" -> lower b = "ha" -> convert_energy_f C r a b = Some r) /\
  (lower a = "pa" -> lower b = "pa" -> convert_pressure_f r a b = Some r) /\
  (lower a = "cm^-1" -> lower b = "cm^-1" -> convert_frequency_f C r a b = Some r) /\
  (In (lower a) ["metre"; "m"] -> In (lower b) ["metre"; "m"] -> convert_lenght_f C r a b = Some r /\ convert_volume_f C r a b = Some r).
Proof.
  unfold convert_temperature_f, to_kelvin_f, from_kelvin_f, convert_energy_f, to_hartree_f, from_hartree_f, convert_pressure_f, to_pascal_f, from_pascal_f, convert_frequency_f, to_wavenumber_f, from_wavenumber_f,
    convert_lenght_f, to_metre_f, from_metre_f, convert_volume_f, to_metre3_f, from_metre3_f.
  split; [|split; [|split; [|split]]].
  - intros [<- | [<- | []]] [<- | [<- | []]]; reflexivity.
  - intros -> ->. reflexivity.
  - intros -> ->. reflexivity.
  - intros -> ->. reflexivity.
  - intros [<- | [<- | []]] [<- | [<- | []]]; split; reflexivity.
Qed.
(** A pressure whose value in pascal and in the new unit are doubles is converted
    without any error: whole numbers of GPa, for instance. *)
Lemma exact_to v a d : meaning pressure_units (lower a) = Some d -> double (fst d * v) -> Rabs (fst d * v) <= b2 900 -> to_pascal_f (Fin v) a = Some (Fin (fst d * v)).
Proof.
  intros M D B. assert (P0 : Rabs (v * fst d) <= b2 1000) by (rewrite Rmult_comm; apply Rle_trans with (b2 900); [exact B|bp]).
  assert (Q : fmul (Fin v) (Fin (fst d)) = Fin (fst d * v)) by (rewrite mul_fin by exact P0; f_equal; rewrite Rmult_comm; now apply rnd_double).
  assert (Z : fst d = 1 -> Fin v = Fin (fst d * v)) by (intros ->; f_equal; ring).
  revert M Q Z. clear P0 D B. unfold to_pascal_f, pressure_units, mem. generalize (lower a). intro k. cbn [existsb meaning].
  split_name k; intros M; try discriminate M; injection M as <-; cbn [fst]; intros Q Z; try (now rewrite Z);
  rewrite <- Q; do 3 f_equal; unfold kilo, mega, giga, gbar, mbar, kbar, bar; lra.
Qed.
Lemma exact_from p b d : meaning pressure_units (lower b) = Some d -> double (p / fst d) -> Rabs p <= b2 900 -> from_pascal_f (Fin p) b = Some (Fin (p / fst d)).
Proof.
  intros M D B. assert (D1 : 1 <= fst d).
  { revert M. unfold pressure_units. cbn [meaning]. repeat (destruct (String.eqb _ _); [intro E; injection E as <-; cbn [fst]; lra|]). discriminate. }
  assert (P0 : Rabs (p / fst d) <= b2 1000).
  { unfold Rdiv. rewrite Rabs_mult. assert (0 < / fst d <= 1) by (split; [apply Rinv_0_lt_compat; lra|rewrite <- Rinv_1; apply Rinv_le; lra]).
    rewrite (Rabs_pos_eq (/ fst d)) by lra. pose proof (Rabs_pos p). apply Rle_trans with (Rabs p * 1); [apply Rmult_le_compat_l; lra|]. rewrite Rmult_1_r. apply Rle_trans with (b2 900); [exact B|bp]. }
  assert (Q : npdiv (Fin p) (Fin (fst d)) = Fin (p / fst d)) by (unfold npdiv; rewrite div_fin by (lra || exact P0); f_equal; now apply rnd_double).
  assert (Z : fst d = 1 -> Fin p = Fin (p / fst d)) by (intros ->; f_equal; field).
  revert M Q Z. clear P0 D B D1. unfold from_pascal_f, pressure_units, mem. generalize (lower b). intro k. cbn [existsb meaning].
  split_name k; intros M; try discriminate M; injection M as <-; cbn [fst]; intros Q Z; try (now rewrite Z);
  rewrite <- Q; do 3 f_equal; unfold kilo, mega, giga, gbar, mbar, kbar, bar; lra.
Qed.
Theorem C91_exact_pressure v a b da db :
  meaning pressure_units (lower a) = Some da -> meaning pressure_units (lower b) = Some db ->
  double (si da v) -> double (si da v / fst db) -> Rabs (si da v) <= b2 900 ->
  exists x, convert_pressure_f (Fin v) a b = Some (Fin x) /\ si db x = si da v.
Proof.
  intros A B. unfold si. rewrite (pressure_zero _ _ A), (pressure_zero _ _ B), Rplus_0_r. intros D1 D2 L. exists (fst da * v / fst db). split.
  - unfold convert_pressure_f. rewrite (exact_to v a da A D1 L). cbn [through]. now apply exact_from.
  - pose proof (pressure_pos _ _ B). field. lra.
Qed.

(** Otherwise a conversion to the same scale need not give back the number:
    0.7000000000000001 kbar becomes 0.7 kbar, 0.1 degrees become
    0.10000000000002274 degrees. *)
Theorem C91_same_scale_refuted :
  (exists v, double v /\ convert_pressure_f (Fin v) "kbar" "kbar" <> Some (Fin v)) /\
  convert_temperature_f (Fin (rnd (1 / 10))) "C" "C" <> Some (Fin (rnd (1 / 10))).
Proof.
  split.
  - exists (IZR 6305039478318695 * b2 (-53)). split; [apply double_scaled; lia|].
    assert (E : rnd (IZR 6305039478318695 * b2 (-53) * 100000000) = IZR 4697620480000000 * b2 (-26)).
    { apply rnd_value; [lia|lia|]. numeric. apply Rabs_def1; lra. }
    assert (F : rnd (IZR 4697620480000000 * b2 (-26) / 100000000) = IZR 6305039478318694 * b2 (-53)).
    { apply rnd_value; [lia|lia|]. numeric. apply Rabs_def1; lra. }
    assert (B : b2 30 <= b2 1000) by bp. assert (B30 : b2 30 = 1073741824) by (change 30%Z with (Z.of_nat 30); rewrite b2_nat; simpl; lra).
    assert (V : 0 <= IZR 6305039478318695 * b2 (-53) <= 1) by (numeric; lra). assert (V2 : 0 <= IZR 4697620480000000 * b2 (-26) <= 100000000) by (numeric; lra).
    change (convert_pressure_f (Fin (IZR 6305039478318695 * b2 (-53))) "kbar" "kbar") with (Some (npdiv (fmul (Fin (IZR 6305039478318695 * b2 (-53))) (Fin kbar)) (Fin kbar))).
    unfold kbar. rewrite mul_fin by (rewrite Rabs_pos_eq by lra; lra). rewrite E. unfold npdiv. rewrite div_fin by (try rewrite Rabs_pos_eq by lra; lra). rewrite F.
    intros X. apply Some_inj in X. assert (Y : IZR 6305039478318694 * b2 (-53) = IZR 6305039478318695 * b2 (-53)) by congruence. pose proof (b2_pos (-53)). lra.
  - assert (Z : rnd (27315 / 100) = IZR 4805305618032230 * b2 (-44)).
    { apply rnd_value; [lia|lia|]. numeric. apply Rabs_def1; lra. }
    assert (E : rnd (IZR 7205759403792794 * b2 (-56) + IZR 4805305618032230 * b2 (-44)) = IZR 4807064836636672 * b2 (-44)).
    { apply rnd_value; [lia|lia|]. numeric. apply Rabs_def1; lra. }
    assert (F : rnd (IZR 4807064836636672 * b2 (-44) + - (IZR 4805305618032230 * b2 (-44))) = IZR 1759218604442 * b2 (-44)).
    { replace (IZR 4807064836636672 * b2 (-44) + - (IZR 4805305618032230 * b2 (-44))) with (IZR 1759218604442 * b2 (-44)) by lra. apply rnd_double. apply double_scaled; lia. }
    assert (B : b2 30 <= b2 1000) by bp. assert (B30 : b2 30 = 1073741824) by (change 30%Z with (Z.of_nat 30); rewrite b2_nat; simpl; lra).
    rewrite typed_0_1. change (convert_temperature_f (Fin (IZR 7205759403792794 * b2 (-56))) "C" "C") with (Some (fsub (fadd (Fin (IZR 7205759403792794 * b2 (-56))) zero_C) zero_C)).
    assert (V1 : 0 <= IZR 7205759403792794 * b2 (-56) <= 1) by (numeric; lra). assert (V2 : 273 <= IZR 4805305618032230 * b2 (-44) <= 274) by (numeric; lra). assert (V3 : 273 <= IZR 4807064836636672 * b2 (-44) <= 274) by (numeric; lra).
    unfold zero_C. rewrite Z. rewrite add_fin by (rewrite Rabs_pos_eq by lra; lra). rewrite E. unfold fsub. cbn [fneg]. rewrite add_fin by (apply Rabs_le; lra). rewrite F.
    intros X. apply Some_inj in X. assert (Y : IZR 1759218604442 * b2 (-44) = IZR 7205759403792794 * b2 (-56)) by congruence. revert Y. numeric. lra.
Qed.

(** * Cases *)
(** SciPy's constants, to ten figures or so. *)
Definition typed : fconstants := {| kc := codata; cube_A := (100001495 / 10 ^ 18) ^ 3; cube_B := (529177210903 / 10 ^ 22) ^ 3 |}.
Lemma b2_pow n : (0 <= n)%Z -> b2 n = 2 ^ Z.to_nat n /\ b2 (- n) = / 2 ^ Z.to_nat n.
Proof. intros H. rewrite bpow_opp. rewrite <- (Z2Nat.id n) at 1 3 by exact H. rewrite b2_nat. auto. Qed.
Example C91_plausible : plausible typed.
Proof.
  assert (U : forall n x, (0 <= n)%Z -> / 2 ^ Z.to_nat n <= x <= 2 ^ Z.to_nat n -> b2 (- n) <= x <= b2 n) by (intros n x H; destruct (b2_pow n H) as [-> ->]; auto).
  split; unfold usual; try (apply (U 80%Z); [lia|]); try (apply (U 40%Z); [lia|]); try apply (near_weaken _ _ 0); try apply near_refl; try lra; cbn [typed kc codata N_A eV_J Ha_J Ry_J Angstrom_m Bohr_m c_ms]; simpl; lra.
Qed.
Example C91_instance : exists x y, convert_energy_f typed (Fin (-275)) "Ha" "kJ/mol" = Some (Fin x) /\
  convert_energy_f typed (Fin x) "kJ/mol" "Ha" = Some (Fin y) /\ near y (-275) 64 /\ x < 0.
Proof.
  assert (M : moderate (-275)).
  { right. rewrite Rabs_left by lra. split; [apply Rle_trans with (b2 0); [bp|rewrite b2_0; lra]|apply Rle_trans with (b2 10); [change 10%Z with (Z.of_nat 10); rewrite b2_nat; simpl; lra|bp]]. }
  destruct (C91_accuracy typed C91_plausible) as (A & _). destruct (A (-275) "Ha" "kJ/mol" _ _ eq_refl eq_refl M) as (x & E & N).
  destruct (C91_there_and_back typed C91_plausible) as (B & _). destruct (B _ _ _ _ M E) as (y & E2 & N2). exists x, y. split; [exact E|]. split; [exact E2|]. split; [exact N2|].
  unfold near, si in N. cbn [fst snd] in N. rewrite !Rplus_0_r in N. set (h := Ha_J _) in N. set (q := 1000 / N_A _) in N.
  assert (HP : 0 < h) by (apply (usual_pos h), (p_Ha typed C91_plausible)). assert (QP : 0 < q) by (unfold q, typed, kc, codata, N_A; apply Rdiv_lt_0_compat; lra).
  pose proof u_small. pose proof u_pos. rewrite (Rabs_left (h * -275)) in N by lra.
  assert (32 * u * - (h * -275) <= / 2 * (h * 275)) by (replace (32 * u * - (h * -275)) with (32 * u * (h * 275)) by ring; apply Rmult_le_compat_r; lra).
  apply Rabs_def2b in N || idtac. pose proof (Rle_abs (q * x - h * -275)). assert (q * x < 0) by lra. nra.
Qed.
(** 25 GPa are 250 kbar, exactly. *)
Example C91_whole : exists x, convert_pressure_f (Fin 25) "GPa" "kbar" = Some (Fin x) /\ x = 250.
Proof.
  assert (D : forall z, (Z.abs z < 2 ^ 53)%Z -> double (IZR z)) by (intros z H; rewrite <- (Rmult_1_r (IZR z)), <- b2_0; apply double_scaled; lia).
  destruct (C91_exact_pressure 25 "GPa" "kbar" _ _ eq_refl eq_refl) as (x & E & S); unfold si in *; cbn [fst snd] in *.
  - replace (10 ^ 9 * 25 + 0) with (IZR 25000000000) by lra. apply D. reflexivity.
  - replace ((10 ^ 9 * 25 + 0) / 10 ^ 8) with (IZR 250) by lra. apply D. reflexivity.
  - rewrite Rabs_pos_eq by lra. apply Rle_trans with (b2 40); [change 40%Z with (Z.of_nat 40); rewrite b2_nat; simpl; lra|bp].
  - exists x. split; [exact E|]. lra.
Qed.
Example C91_room : exists x, convert_temperature_f (Fin 25) "C" "F" = Some (Fin x) /\ Rabs (x - 77) <= / 1000000000.
Proof.
  destruct (C91_temperature 25 "C" "F" _ _ ltac:(rewrite Rabs_pos_eq by lra; apply Rle_trans with (b2 10); [change 10%Z with (Z.of_nat 10); rewrite b2_nat; simpl; lra|bp]) eq_refl eq_refl) as (x & E & N).
  exists x. split; [exact E|]. unfold si in N. cbn [fst snd] in N. rewrite (Rabs_pos_eq 25) in N by lra. pose proof u_small. pose proof u_pos.
  replace (5 / 9 * x + (27315 / 100 - 32 * 5 / 9) - (1 * 25 + 27315 / 100)) with (5 / 9 * (x - 77)) in N by lra. rewrite Rabs_mult, (Rabs_pos_eq (5 / 9)) in N by lra. lra.
Qed.
Example C91_order_instance : exists x y, convert_volume_f typed (Fin 70) "angstrom" "bohr" = Some x /\ convert_volume_f typed (Fin 80) "angstrom" "bohr" = Some y /\ fle x y.
Proof.
  destruct (C91_names typed C91_plausible) as (_ & _ & _ & _ & _ & N).
  destruct (convert_volume_f typed (Fin 70) "angstrom" "bohr") as [x|] eqn:E1; [|apply N in E1; destruct E1 as [E1|E1]; discriminate E1].
  destruct (convert_volume_f typed (Fin 80) "angstrom" "bohr") as [y|] eqn:E2; [|apply N in E2; destruct E2 as [E2|E2]; discriminate E2].
  exists x, y. split; [reflexivity|]. split; [reflexivity|]. destruct (C91_order typed C91_plausible "angstrom" "bohr" "ha" "a" "gpa") as (_ & _ & _ & _ & _ & V & _).
  apply (V (Fin 70) (Fin 80) x y); auto. cbn [fle]. lra.
Qed.
Example C91_density_instance : exists x, energy_to_pressure_f typed (Fin (1 / 5)) "eV" "angstrom" "GPa" = Some (Fin x) /\
  near (10 ^ 9 * x) (1602176634 / 10 ^ 28 / 5 / (100001495 / 10 ^ 18) ^ 3) 32.
Proof.
  assert (M : moderate (1 / 5)).
  { right. rewrite Rabs_pos_eq by lra. split; [apply Rle_trans with (b2 (-10)); [bp|change (-10)%Z with (- (10))%Z; rewrite (proj2 (b2_pow 10 ltac:(lia))); simpl; lra]|apply Rle_trans with (b2 0); [rewrite b2_0; lra|bp]]. }
  destruct (C91_energy_density typed C91_plausible (1 / 5) "eV" "angstrom" "GPa" _ _ _ M eq_refl eq_refl eq_refl) as ((x & E & N) & _).
  exists x. split; [exact E|]. unfold si in N. cbn [fst snd typed kc codata eV_J Angstrom_m] in N. rewrite !Rplus_0_r, Rmult_1_r in N.
  replace (1602176634 / 10 ^ 28 / 5 / (100001495 / 10 ^ 18) ^ 3) with (1602176634 / 10 ^ 28 * (1 / 5) / (100001495 / 10 ^ 18) ^ 3); [exact N|].
  unfold Rdiv. rewrite Rmult_1_l. reflexivity.
Qed.

Print Assumptions C91_accuracy.
Print Assumptions C91_there_and_back.
Print Assumptions C91_energy_density.
Print Assumptions C91_density_back.
Print Assumptions C91_temperature.
Print Assumptions C91_temperature_back.
Print Assumptions C91_order.
Print Assumptions C91_sign.
Print Assumptions C91_missing.
Print Assumptions C91_names.
Print Assumptions C91_identity.
Print Assumptions C91_exact_pressure.
Print Assumptions C91_same_scale_refuted.
