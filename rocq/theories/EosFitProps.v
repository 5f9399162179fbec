(** Properties C21, C22, C64 and C65: the fitting front end and the interactive
    session. *)
From Coq Require Import Reals Lra Lia Psatz Arith ZArith Bool List String.
From Verif Require Import Py PvEosModel PvEosProofs PvEosProps EosFitModel.
Import ListNotations.
Open Scope R_scope.

(** ** C21 *)
(** The scheme depends on the volume uncertainties only; pressure
    uncertainties are passed on but never select anything. *)
Theorem C21_weighting {A} gp g (sv sp : option A) order linear fixed :
  let p := fst (fit gp g sv sp order linear fixed) in
  (job p = OrthogonalDistance <-> sv <> None) /\ (job p = LeastSquares <-> sv = None) /\
  used_sigmaV p = sv /\ used_sigmaP p = sp.
Proof.
  unfold fit, check; simpl. destruct sv; simpl; repeat split; intros; try discriminate; try reflexivity; congruence.
Qed.
Theorem C21_pressure_uncertainties_ignored {A} gp g (sv sp sp' : option A) order linear fixed :
  job (fst (fit gp g sv sp order linear fixed)) = job (fst (fit gp g sv sp' order linear fixed)).
Proof. reflexivity. Qed.
(** A comment on [check]'s documented four cases: only two occur. *)
Theorem C21_check_values {A B} (sv : option A) (sp : option B) :
  check sv sp = (match sv with Some _ => 3 | None => 0 end)%nat.
Proof. destruct sv; reflexivity. Qed.
(** The free parameters: K0 and V0 always, K' from order 3, K'' from order 4 -
    unless the caller gives a list, which is then used for every order. *)
Theorem C21_free_parameters {A} gp g (sv sp : option A) order linear :
  (2 <= order)%nat ->
  free (fst (fit gp g sv sp order linear None)) =
    [1; if (3 <=? order)%nat then 1 else 0; if (4 <=? order)%nat then 1 else 0; 1]%nat /\
  forall f, free (fst (fit gp g sv sp order linear (Some f))) = f.
Proof.
  intros H. split; [|reflexivity]. cbn.
  destruct order as [|[|[|[|o]]]]; try lia; reflexivity.
Qed.
(** The start values: a caller's guess is itself overwritten for axial data. *)
Theorem C21_start_values {A} gp g (sv sp : option A) order linear fixed :
  let '(p, g') := fit gp g sv sp order linear fixed in
  (linear = false -> start p = match g with Some g => g | None => gp end /\ g' = g) /\
  (linear = true -> forall k r, g = Some (k :: r) -> start p = 3 * k :: r /\ g' = Some (3 * k :: r)).
Proof.
  unfold fit. split.
  - intros ->. destruct g as [[|x r]|]; simpl; auto. split; [destruct gp|]; auto.
  - intros -> k r ->. simpl. rewrite (Rmult_comm k). auto.
Qed.
Example C21_instance :
  job (fst (fit [] None (None : option nat) (Some 1%nat) 3 false None)) = LeastSquares /\
  job (fst (fit [] None (Some 1%nat) None 3 false None)) = OrthogonalDistance /\
  free (fst (fit [] None (Some 1%nat) None 2 false None)) = [1; 0; 0; 1]%nat.
Proof. repeat split. Qed.

(** ** C22 *)
Theorem C22_parameters_kept n p order linear vref :
  In n [normalize_bm; normalize_ns; normalize_vinet] ->
  ~ (order = 2%nat /\ linear = true) -> fst (n p order linear vref) = p.
Proof.
  intros I N. simpl in I. 
  assert (E : ((order =? 2)%nat && linear)%bool = false).
  { destruct (Nat.eqb_spec order 2), linear; try reflexivity. exfalso; auto. }
  decompose [or] I; subst; try contradiction;
    unfold normalize_bm, normalize_ns, normalize_vinet; rewrite E; simpl; destruct p; reflexivity.
Qed.
(** With order 2 and axial data the caller's K' and K'' are overwritten. *)
Theorem C22_parameters_overwritten p vref :
  fst (normalize_bm p 2 true vref) = {| K0 := K0 p; K1 := 4; K2 := -1 / K0 p * ((3 - 4) * (4 - 4) + 35 / 9); V0 := V0 p |} /\
  fst (normalize_ns p 2 true vref) = {| K0 := K0 p; K1 := 2; K2 := -1 / K0 p * (1 + (2 - 2) + (2 - 2) ^ 2); V0 := V0 p |} /\
  fst (normalize_vinet p 2 true vref) = {| K0 := K0 p; K1 := 2; K2 := -1 / K0 p * (1 + (2 - 2) + (2 - 2) ^ 2); V0 := V0 p |}.
Proof. repeat split. Qed.
(** In particular whatever array an axial second-order fit leaves is changed
    (its K' is 12, 6 or 3), so results reported before and after differ. *)
Theorem C22_fitted_array_changed_refuted p vref :
  fst (normalize_bm (left_by birch_murnaghan p 2 true true) 2 true vref) <> left_by birch_murnaghan p 2 true true /\
  fst (normalize_ns (left_by natural_strain p 2 true true) 2 true vref) <> left_by natural_strain p 2 true true /\
  fst (normalize_vinet (left_by vinet p 2 true true) 2 true vref) <> left_by vinet p 2 true true.
Proof.
  split; [|split]; intros E; apply (f_equal K1) in E; cbn in E; lra.
Qed.
(** The normalised pressure of the curve is the truncated strain polynomial,
    away from the reference volume (0/0 there). *)
Theorem C22_normalised_curve p order linear vref V :
  ~ (order = 2%nat /\ linear = true) -> 0 < V0 p -> 0 < V -> V <> V0 p ->
  (let n := snd (normalize_bm p order linear vref) in let f := f_calc n V in
   NP_calc n V = K0 p * (1 + 3 / 2 * (K1 p - 4) * f + 3 / 2 * (K0 p * K2 p + (K1 p - 4) * (K1 p - 3) + 35 / 9) * f ^ 2)) /\
  (let n := snd (normalize_ns p order linear vref) in let f := f_calc n V in
   NP_calc n V = K0 p * (1 + 3 / 2 * (K1 p - 2) * f + 3 / 2 * (1 + K2 p * K0 p + (K1 p - 2) + (K1 p - 2) ^ 2) * f ^ 2)) /\
  (let n := snd (normalize_vinet p order linear vref) in let f := f_calc n V in
   f <> 0 /\ NP_calc n V = curve vinet p order linear false V * (1 - f) ^ 2 / (3 * f)).
Proof.
  intros N Hv HV D.
  assert (E : ((order =? 2)%nat && linear)%bool = false).
  { destruct (Nat.eqb_spec order 2), linear; try reflexivity. exfalso; auto. }
  assert (L : ln (V0 p / V) <> 0).
  { intros Z. apply D. apply (f_equal exp) in Z. rewrite exp_0, exp_ln_ratio in Z by assumption.
    apply (Rmult_eq_compat_r V) in Z. field_simplify in Z; lra. }
  assert (INJ : forall x, exp x = 1 -> x = 0).
  { intros x Hx. rewrite <- exp_0 in Hx. now apply exp_inv. }
  split; [|split]; unfold normalize_bm, normalize_ns, normalize_vinet; rewrite E; clear E; cbv zeta; cbn [snd f_calc NP_calc].
  - unfold birch_murnaghan, bm_pars, second_order. cbn [andb].  cbn [snd].
    set (f := 1 / 2 * (Rpower (V0 p / V) (2 / 3) - 1)).
    assert (F : f <> 0).
    { unfold f. intros Z. apply L. assert (EE : exp (2 / 3 * ln (V0 p / V)) = 1) by (unfold Rpower in Z; lra).
      apply INJ in EE. lra. }
    assert (G : Rpower (1 + 2 * f) (5 / 2) <> 0) by (apply Rgt_not_eq, exp_pos).
    field. split; assumption.
  - unfold natural_strain, ns_pars, second_order. cbn [andb]. cbn [snd].
    set (x := ln (V0 p / V)) in *. field. repeat split; lra.
  - unfold curve, vinet, vinet_pars, second_order. cbn [andb snd set_K2 K0 K1 K2 V0].
    set (X := Rpower (V / V0 p) (1 / 3)).
    assert (HX : 0 < X) by apply exp_pos.
    assert (F : 1 - X <> 0).
    { intros Z. apply L. assert (EE : exp (1 / 3 * ln (V / V0 p)) = 1) by (fold (Rpower (V / V0 p) (1 / 3)); fold X; lra).
      apply INJ in EE. rewrite (ln_inv_ratio (V0 p) V) in EE by assumption. lra. }
    split; [assumption|]. field. repeat split; try assumption; lra.
Qed.
(** Data lying on the fitted curve, with the first volume at V0, give observed
    points on the calculated normalised curve. *)
Theorem C22_observed_on_curve p order linear V :
  ~ (order = 2%nat /\ linear = true) -> 0 < V0 p -> 0 < V -> V <> V0 p ->
  (let n := snd (normalize_bm p order linear (V0 p)) in
   f_obs n V = f_calc n V /\ NP_obs n V (curve birch_murnaghan p order linear false V) = NP_calc n V) /\
  (let n := snd (normalize_ns p order linear (V0 p)) in
   f_obs n V = f_calc n V /\ NP_obs n V (curve natural_strain p order linear false V) = NP_calc n V) /\
  (let n := snd (normalize_vinet p order linear (V0 p)) in
   f_obs n V = f_calc n V /\ NP_obs n V (curve vinet p order linear false V) = NP_calc n V).
Proof.
  intros N Hv HV D.
  assert (E : ((order =? 2)%nat && linear)%bool = false).
  { destruct (Nat.eqb_spec order 2), linear; try reflexivity. exfalso; auto. }
  destruct (C22_normalised_curve p order linear (V0 p) V N Hv HV D) as (_ & _ & _ & HVI).
  split; [|split].
  - unfold normalize_bm. rewrite E. split; reflexivity.
  - unfold normalize_ns. rewrite E. split; reflexivity.
  - cbv zeta. rewrite HVI. unfold normalize_vinet. rewrite E. split; reflexivity.
Qed.
(** The points called observed are functions of the data alone (the first
    volume is the reference), whatever the fitted parameters and the options. *)
Theorem C22_observed_from_data_only n p p' order order' linear linear' vref V P :
  In n [normalize_bm; normalize_ns; normalize_vinet] ->
  f_obs (snd (n p order linear vref)) V = f_obs (snd (n p' order' linear' vref)) V /\
  NP_obs (snd (n p order linear vref)) V P = NP_obs (snd (n p' order' linear' vref)) V P.
Proof.
  intros I. simpl in I. decompose [or] I; subst; try contradiction; split; reflexivity.
Qed.
Example C22_instance : fst (normalize_bm garnet 2 true 1500) <> garnet /\ fst (normalize_bm garnet 3 true 1500) = garnet.
Proof.
  split; [|reflexivity]. intros E. apply (f_equal K1) in E. cbn in E. lra.
Qed.

(** ** C64, C65 *)
Section SessionProps.
Variable available available_sigma : string -> bool.
Variable guess : string -> list R.
Variable parse_int : string -> option nat.
Variable parse_float : string -> option R.
Variable round5 : R -> R.
Variable odr : string -> string -> fit_plan string -> list R.
Notation stp := (step available available_sigma guess parse_int parse_float round5 odr).
Notation ses := (session available available_sigma guess parse_int parse_float round5 odr).

(** What a user expects of a fit: the formulation exists, the order is one of
    its orders, the data set was supplied, the weights are supplied columns and
    one flag per parameter is given. *)
Definition offered : list (string * nat) :=
  [("1", 3); ("2", 2); ("2", 3); ("2", 4); ("3", 2); ("3", 3); ("3", 4); ("4", 2); ("4", 3); ("5", 2); ("5", 3); ("5", 4)]%string%nat.
Definition sound_fit (e : event) : Prop :=
  match e with
  | Rejected => True
  | Fitted data key p =>
      In (key, plan_order p) offered /\
      In data ["v"; "a"; "b"; "c"]%string /\ available data = true /\
      plan_linear p = negb (data =? "v")%string /\
      (forall q, used_sigmaP p = Some q -> q = "p"%string /\ available_sigma "p" = true) /\
      (forall q, used_sigmaV p = Some q -> q = data /\ available_sigma data = true) /\
      List.length (free p) = 4%nat
  end.

(** Invariant of the program points. *)
Definition data_ok (d : string) := In d DATA_TYPES /\ available d = true.
Definition sel_ok (s : sel) := data_ok (s_data s) /\ exists os, EOS_ORDERS (s_eos s) = Some os /\ In (s_order s) os.
Definition def_ok (d : defaults) := match d with None => True | Some (k, o) => EOS_ORDERS k <> None end.
Definition wp_ok (wp : option string) := forall q, wp = Some q -> q = "p"%string /\ available_sigma "p" = true.
Definition inv (st : point) : Prop :=
  match st with
  | AtData d | AtOther d => def_ok d
  | AtEos c => data_ok (c_data c) /\ def_ok (c_defaults c)
  | AtOrder c key => data_ok (c_data c) /\ def_ok (c_defaults c) /\ EOS_ORDERS key <> None
  | AtModify s | AtParam s _ | AtFix s | AtUpdate s _ | AtContinue s | AtChangeEos s => sel_ok s
  | AtFixOne s acc => sel_ok s /\ (List.length acc < 4)%nat
  | AtWeights s fx => sel_ok s /\ List.length fx = 4%nat
  | AtWeightP s fx => sel_ok s /\ List.length fx = 4%nat /\ available_sigma "p" = true
  | AtWeightV s fx wp => sel_ok s /\ List.length fx = 4%nat /\ available_sigma (s_data s) = true /\ wp_ok wp
  | Done => True
  end.

Lemma orders_offered key os o : EOS_ORDERS key = Some os -> In o os -> In (key, o) offered.
Proof.
  unfold EOS_ORDERS, offered. intros E I.
  destruct (String.eqb_spec key "1"); [|destruct (String.eqb_spec key "2"); [|destruct (String.eqb_spec key "3");
    [|destruct (String.eqb_spec key "4"); [|destruct (String.eqb_spec key "5"); [|discriminate]]]]];
  injection E as <-; subst; simpl in I; decompose [or] I; subst; try contradiction; simpl; tauto.
Qed.

Lemma do_fit_ok s fx wp wv : sel_ok s -> List.length fx = 4%nat -> wp_ok wp ->
  (forall q, wv = Some q -> q = s_data s /\ available_sigma (s_data s) = true) ->
  inv (fst (do_fit guess odr s fx wp wv)) /\ Forall sound_fit (snd (do_fit guess odr s fx wp wv)).
Proof.
  intros S L WP WV. unfold do_fit, fit. cbn -[offered]. split; [exact S|].
  destruct S as ((D1 & D2) & os & O1 & O2).
  constructor; [|constructor]. cbn -[offered]. repeat split; auto.
  - now apply (orders_offered _ os).
  - intros. now apply WP.
  - now apply WP in H.
  - intros. now apply WV.
  - now apply WV in H.
Qed.
Lemma ask_weight_v_ok s fx wp : sel_ok s -> List.length fx = 4%nat -> wp_ok wp ->
  inv (fst (ask_weight_v available_sigma guess odr s fx wp)) /\
  Forall sound_fit (snd (ask_weight_v available_sigma guess odr s fx wp)).
Proof.
  intros S L WP. unfold ask_weight_v. destruct (available_sigma (s_data s)) eqn:E.
  - cbn. auto.
  - apply do_fit_ok; auto. discriminate.
Qed.
Lemma ask_weights_ok s fx : sel_ok s -> List.length fx = 4%nat ->
  inv (fst (ask_weights available_sigma guess odr s fx)) /\
  Forall sound_fit (snd (ask_weights available_sigma guess odr s fx)).
Proof.
  intros S L. unfold ask_weights. destruct (available_sigma "p" || available_sigma (s_data s))%bool.
  - cbn. auto.
  - apply do_fit_ok; auto; intros ?; discriminate.
Qed.
Lemma yes_no_ok d ans here k : inv here ->
  (forall b, inv (fst (k b)) /\ Forall sound_fit (snd (k b))) ->
  inv (fst (yes_no d ans here k)) /\ Forall sound_fit (snd (yes_no d ans here k)).
Proof.
  intros I K. unfold yes_no. destruct (confirm_answer d ans); [apply K|]. cbn. repeat constructor. exact I.
Qed.

Lemma step_ok st ans : inv st -> inv (fst (stp st ans)) /\ Forall sound_fit (snd (stp st ans)).
Proof.
  intros I. destruct st; cbn [step].
  - destruct (mem ans DATA_TYPES && available ans)%bool eqn:E; cbn -[DATA_TYPES]; [|split; [exact I|repeat constructor]].
    apply andb_true_iff in E. destruct E as (E1 & E2). split; [|constructor]. split; [|exact I]. split; [|exact E2].
    apply existsb_exists in E1. destruct E1 as (x & Hx & Ex). apply String.eqb_eq in Ex. now subst.
  - destruct (EOS_ORDERS _) eqn:E; cbn; [|split; [exact I|repeat constructor]].
    split; [|constructor]. destruct I. repeat split; auto; try apply H. congruence.
  - destruct I as (I1 & I2 & I3). destruct (EOS_ORDERS key) as [choices|] eqn:E; [|congruence].
    assert (OK : inv (AtOrder c key)) by (cbn; repeat split; auto; try apply I1; congruence).
    match goal with |- context[match ?x with Some _ => _ | None => _ end] => destruct x as [o|] end;
      [|cbn; split; [exact OK|repeat constructor]].
    destruct (existsb (Nat.eqb o) choices) eqn:X; [|cbn [fst snd]; split; [exact OK|repeat constructor]].
    cbn. split; [|constructor]. split; [exact I1|]. exists choices. split; [exact E|].
    apply existsb_exists in X. destruct X as (y & Hy & Ey). apply Nat.eqb_eq in Ey. now subst.
  - apply yes_no_ok; [exact I|]. intros []; cbn; (split; [|constructor]); [|exact I].
    unfold next_param. destruct (_ <? _)%nat; exact I.
  - match goal with |- context[match ?x with Some _ => _ | None => _ end] => destruct x end; cbn; (split; [|repeat constructor]); [|exact I].
    unfold next_param. destruct (_ <? _)%nat; exact I.
  - apply yes_no_ok; [exact I|]. intros []; [cbn; split; [split; [exact I|lia]|constructor]|].
    now apply ask_weights_ok.
  - destruct I as (I & L). apply yes_no_ok; [split; assumption|]. intros b.
    destruct (Nat.ltb_spec (List.length (acc ++ [(if b then 0 else 1)%nat])%list) 4).
    + cbn. split; [|constructor]. split; assumption.
    + apply ask_weights_ok; [assumption|]. rewrite app_length in *. simpl in *. lia.
  - destruct I as (I & L). apply yes_no_ok; [split; assumption|]. intros [].
    + destruct (available_sigma "p") eqn:E; [cbn; repeat split; auto; apply I|].
      apply ask_weight_v_ok; auto. intros ?; discriminate.
    + apply do_fit_ok; auto; intros ?; discriminate.
  - destruct I as (I & L & E). apply yes_no_ok; [repeat split; auto; apply I|]. intros b.
    apply ask_weight_v_ok; auto. intros q Hq. destruct b; [|discriminate]. injection Hq as <-. auto.
  - destruct I as (I & L & E & W). apply yes_no_ok; [split; [exact I|split; [exact L|split; [exact E|exact W]]]|]. intros b.
    apply do_fit_ok; auto. intros q Hq. destruct b; [|discriminate]. injection Hq as <-. auto.
  - apply yes_no_ok; [exact I|]. intros []; cbn; (split; [|constructor]); exact I.
  - apply yes_no_ok; [exact I|]. destruct I as (I1 & os & I2 & I3).
    intros []; cbn; (split; [|constructor]).
    + split; [exact I1|]. exists os. auto.
    + congruence.
  - apply yes_no_ok; [exact I|]. destruct I as (I1 & os & I2 & I3). intros []; cbn; (split; [|constructor]).
    + split; [exact I1|]. congruence.
    + split; [exact I1|]. exists os. auto.
  - apply yes_no_ok; [exact I|]. intros []; cbn; (split; [|constructor]); [exact I|constructor].
  - cbn. auto.
Qed.

(** C64: whatever the user types, every fit performed is sound. *)
Theorem C64_every_fit_is_offered answers :
  Forall sound_fit (snd (ses (AtData None) answers)).
Proof.
  assert (G : forall st, inv st -> Forall sound_fit (snd (ses st answers))).
  { induction answers as [|a r IH]; intros st I; [constructor|]. cbn [session].
    pose proof (step_ok st a I) as (I' & S). destruct (stp st a) as (st', ev). cbn in I', S.
    specialize (IH st' I'). destruct (ses st' r) as (st'', ev'). cbn in *. apply Forall_app. auto. }
  apply G. exact I.
Qed.

(** C64: a rejected answer changes nothing at all. *)
Theorem C64_rejected_answers_change_nothing st ans :
  In Rejected (snd (stp st ans)) -> fst (stp st ans) = st /\ snd (stp st ans) = [Rejected].
Proof.
  assert (NF : forall s fx wp wv, ~ In Rejected (snd (do_fit guess odr s fx wp wv))).
  { intros. unfold do_fit, fit. cbn. intuition discriminate. }
  assert (NV : forall s fx wp, ~ In Rejected (snd (ask_weight_v available_sigma guess odr s fx wp))).
  { intros. unfold ask_weight_v. destruct (available_sigma (s_data s)); [simpl; tauto|apply NF]. }
  assert (NW : forall s fx, ~ In Rejected (snd (ask_weights available_sigma guess odr s fx))).
  { intros. unfold ask_weights. destruct (_ || _)%bool; [simpl; tauto|apply NF]. }
  assert (YN : forall d here k, (forall b, ~ In Rejected (snd (k b))) ->
    In Rejected (snd (yes_no d ans here k)) -> fst (yes_no d ans here k) = here /\ snd (yes_no d ans here k) = [Rejected]).
  { intros d here k K. unfold yes_no. destruct (confirm_answer d ans); [|auto]. intros R. now apply K in R. }
  destruct st; cbn [step]; intros R;
    try (revert R; apply YN; intros []; cbn [snd]; try (simpl; tauto); auto; fail).
  - destruct (_ && _)%bool; cbn in *; tauto.
  - destruct (EOS_ORDERS _); cbn in *; tauto.
  - destruct (EOS_ORDERS key); [|auto].
    match goal with |- context[match ?x with Some _ => _ | None => _ end] => destruct x end; [|auto].
    destruct (existsb _ _); cbn in *; tauto.
  - match goal with |- context[match ?x with Some _ => _ | None => _ end] => destruct x end; cbn in *; tauto.
  - revert R. apply YN. intros b. destruct (_ <? _)%nat; [simpl; tauto|apply NW].
  - revert R. apply YN. intros []; [|apply NF]. destruct (available_sigma "p"); [simpl; tauto|apply NV].
  - cbn in R. tauto.
Qed.

(** C64: the only way out is declining the last question. *)
Theorem C64_exit_only_when_declined st ans :
  fst (stp st ans) = Done -> st <> Done ->
  exists d, st = AtOther d /\ mem (strip (lower ans)) ["n"; "no"; ""]%string = true.
Proof.
  assert (NF : forall s fx wp wv, fst (do_fit guess odr s fx wp wv) <> Done) by (intros; discriminate).
  assert (NV : forall s fx wp, fst (ask_weight_v available_sigma guess odr s fx wp) <> Done).
  { intros. unfold ask_weight_v. destruct (available_sigma (s_data s)); [simpl; discriminate|apply NF]. }
  assert (NW : forall s fx, fst (ask_weights available_sigma guess odr s fx) <> Done).
  { intros. unfold ask_weights. destruct (_ || _)%bool; [simpl; discriminate|apply NF]. }
  assert (NP : forall s i, next_param s i <> Done).
  { intros. unfold next_param. destruct (_ <? _)%nat; discriminate. }
  assert (YN : forall d here k, here <> Done -> (forall b, fst (k b) <> Done) -> fst (yes_no d ans here k) <> Done).
  { intros d here k HN K. unfold yes_no. destruct (confirm_answer d ans); auto. }
  destruct st; cbn [step]; intros E ND; try (exfalso; congruence).
  - exfalso. destruct (_ && _)%bool; discriminate.
  - exfalso. destruct (EOS_ORDERS _); discriminate.
  - exfalso. destruct (EOS_ORDERS key); [|discriminate].
    match type of E with context[match ?x with Some _ => _ | None => _ end] => destruct x end; [|discriminate].
    destruct (existsb _ _); discriminate.
  - exfalso. revert E. apply YN; [discriminate|]. intros []; cbn; [apply NP|discriminate].
  - exfalso. match type of E with context[match ?x with Some _ => _ | None => _ end] => destruct x end; [|discriminate].
    now apply NP in E.
  - exfalso. revert E. apply YN; [discriminate|]. intros []; [discriminate|apply NW].
  - exfalso. revert E. apply YN; [discriminate|]. intros b. destruct (_ <? _)%nat; [discriminate|apply NW].
  - exfalso. revert E. apply YN; [discriminate|]. intros []; [|apply NF]. destruct (available_sigma "p"); [discriminate|apply NV].
  - exfalso. revert E. apply YN; [discriminate|]. intros b. apply NV.
  - exfalso. revert E. apply YN; [discriminate|]. intros b. apply NF.
  - exfalso. revert E. apply YN; [discriminate|]. intros []; discriminate.
  - exfalso. revert E. apply YN; [discriminate|]. intros []; discriminate.
  - exfalso. revert E. apply YN; [discriminate|]. intros []; discriminate.
  - exists d. split; [reflexivity|]. revert E. unfold yes_no, confirm_answer. unfold mem. cbn [existsb].
    set (v := strip (lower ans)).
    destruct (v =? "y")%string, (v =? "yes")%string, (v =? "n")%string, (v =? "no")%string, (v =? "")%string; cbn; congruence.
Qed.

Lemma session_app st a b : ses st (a ++ b)%list =
  (let '(st', ev) := ses st a in let '(st'', ev') := ses st' b in (st'', (ev ++ ev')%list)).
Proof.
  revert st. induction a as [|x a IH]; intros st; simpl.
  - destruct (ses st b); reflexivity.
  - destruct (stp st x) as (s1, e1). rewrite IH. destruct (ses s1 a) as (s2, e2).
    destruct (ses s2 b) as (s3, e3). now rewrite app_assoc.
Qed.

(** C64: from every point some answers reach the end, so no input traps the
    user - provided one data set is available (read_input guarantees it). *)
Definition can_exit st := exists answers, fst (ses st answers) = Done.
Lemma can_exit_step st ans st' : fst (stp st ans) = st' -> can_exit st' -> can_exit st.
Proof.
  intros E (r & R). exists (ans :: r). cbn. destruct (stp st ans) as (s, e). cbn in E. subst s.
  destruct (ses st' r). exact R.
Qed.
Lemma can_exit_continue s : can_exit (AtContinue s).
Proof.
  apply (can_exit_step _ "n"%string (AtOther (defaults_of s))); [reflexivity|].
  apply (can_exit_step _ "n"%string Done); [reflexivity|]. now exists [].
Qed.
Lemma can_exit_update s b : can_exit (AtUpdate s b).
Proof. apply (can_exit_step _ "n"%string (AtContinue s)); [reflexivity|]. apply can_exit_continue. Qed.
Lemma can_exit_weights s fx : can_exit (AtWeights s fx).
Proof.
  eapply (can_exit_step _ "n"%string); [cbn; reflexivity|]. apply can_exit_update.
Qed.
Lemma can_exit_ask s fx : can_exit (fst (ask_weights available_sigma guess odr s fx)).
Proof. unfold ask_weights. destruct (_ || _)%bool; [apply can_exit_weights|apply can_exit_update]. Qed.
Lemma can_exit_fix s : can_exit (AtFix s).
Proof. apply (can_exit_step _ "n"%string _ eq_refl). cbn. apply can_exit_ask. Qed.
Lemma can_exit_modify s : can_exit (AtModify s).
Proof. apply (can_exit_step _ "n"%string (AtFix s)); [reflexivity|]. apply can_exit_fix. Qed.

Theorem C64_can_always_exit st :
  (exists d, mem d DATA_TYPES = true /\ available d = true /\ d <> ""%string) -> inv st -> can_exit st.
Proof.
  intros (d0 & D0 & A0 & _).
  assert (PAR : forall n s i, (List.length (s_guess s) - i <= n)%nat -> can_exit (next_param s i)).
  { induction n; intros s i L; unfold next_param.
    - destruct (Nat.ltb_spec i (List.length (s_guess s))); [lia|apply can_exit_fix].
    - destruct (Nat.ltb_spec i (List.length (s_guess s))); [|apply can_exit_fix].
      apply (can_exit_step _ ""%string _ eq_refl). cbn [step fst String.eqb]. apply IHn. cbn.
      replace (List.length (set_nth (s_guess s) i (round5 (nth i (s_guess s) 0)))) with (List.length (s_guess s)); [lia|].
      generalize (s_guess s) i (round5 (nth i (s_guess s) 0)). clear. induction l; intros [|i] x; simpl; auto. }
  assert (EOS : forall c, def_ok (c_defaults c) -> can_exit (AtEos c)).
  { intros c DC. apply (can_exit_step _ "1"%string (AtOrder c "1")); [reflexivity|].
    apply (can_exit_step _ ""%string _ eq_refl). cbn [step String.eqb EOS_ORDERS Ascii.eqb Bool.eqb].
    unfold default_order. cbn [existsb hd].
    destruct (Nat.eqb_spec (order_default (c_defaults c)) 3) as [->|N].
    - cbn. apply can_exit_modify.
    - cbn [orb Nat.eqb fst]. apply can_exit_modify. }
  assert (DATA : forall d, def_ok d -> can_exit (AtData d)).
  { intros d DD. apply (can_exit_step _ d0 (AtEos {| c_data := d0; c_guess := None; c_defaults := d |})).
    - cbn [step]. rewrite D0, A0. reflexivity.
    - apply EOS. exact DD. }
  intros I. destruct st; auto.
  - apply EOS. apply I.
  - destruct I as (_ & _ & I). destruct (EOS_ORDERS key) as [os|] eqn:E; [|congruence].
    apply (can_exit_step _ ""%string _ eq_refl). cbn [step String.eqb]. rewrite E.
    assert (X : existsb (Nat.eqb (default_order os (order_default (c_defaults c)))) os = true).
    { unfold default_order. destruct (existsb (Nat.eqb (order_default (c_defaults c))) os) eqn:Y; [exact Y|].
      assert (os <> []).
      { unfold EOS_ORDERS in E. repeat match type of E with context[if ?b then _ else _] => destruct b end;
        (discriminate E || (injection E as <-; discriminate)). }
      destruct os; [congruence|]. cbn. now rewrite Nat.eqb_refl. }
    rewrite X. cbn. apply can_exit_modify.
  - apply can_exit_modify.
  - apply (can_exit_step _ ""%string _ eq_refl). cbn [step fst String.eqb]. eapply PAR. reflexivity.
  - apply can_exit_fix.
  - destruct I as (_ & L). remember (3 - List.length acc)%nat as n eqn:En. revert acc L En.
    induction n; intros acc L En; apply (can_exit_step _ "n"%string _ eq_refl); cbn [step]; unfold yes_no;
      change (confirm_answer false "n") with (Some false); cbv iota beta;
      destruct (Nat.ltb_spec (List.length (acc ++ [1%nat])%list) 4) as [H|H]; cbn [fst];
      rewrite app_length in H; cbn in H; try lia; try apply can_exit_ask.
    apply IHn; rewrite app_length; cbn [List.length]; lia.
  - apply can_exit_weights.
  - apply (can_exit_step _ "n"%string _ eq_refl). cbn. unfold ask_weight_v. destruct (available_sigma (s_data s)).
    + apply (can_exit_step _ "n"%string _ eq_refl). cbn. apply can_exit_update.
    + apply can_exit_update.
  - apply (can_exit_step _ "n"%string _ eq_refl). cbn. apply can_exit_update.
  - apply can_exit_update.
  - apply can_exit_continue.
  - apply (can_exit_step _ "n"%string (AtModify s)); [reflexivity|]. apply can_exit_modify.
  - apply (can_exit_step _ "n"%string Done); [reflexivity|]. now exists [].
  - now exists [].
Qed.
(** ... in particular after any prefix of answers. *)
Corollary C64_no_trap answers :
  (exists d, mem d DATA_TYPES = true /\ available d = true /\ d <> ""%string) ->
  exists more, fst (ses (AtData None) (answers ++ more)%list) = Done.
Proof.
  intros D.
  assert (R : forall l st, inv st -> inv (fst (ses st l))).
  { induction l as [|a r IH]; intros st IS; [exact IS|]. cbn.
    pose proof (proj1 (step_ok st a IS)) as I'. destruct (stp st a) as (s1, e1). cbn in I'.
    specialize (IH s1 I'). destruct (ses s1 r). exact IH. }
  destruct (C64_can_always_exit (fst (ses (AtData None) answers)) D (R answers (AtData None) I)) as (more & M).
  exists more. rewrite session_app. destruct (ses (AtData None) answers) as (st, ev). cbn in M.
  destruct (ses st more). exact M.
Qed.

(** ** C65: start values over a history of fits *)
Definition starts (evs : list event) : list (list R) :=
  flat_map (fun e => match e with Fitted _ _ p => [start p] | Rejected => [] end) evs.
(** Declining every question and continuing with the same data and EoS: one
    fit, and back to the same question. *)
Definition decline (s : sel) : list string :=
  (["n"%string; "n"%string] ++ (if (available_sigma "p" || available_sigma (s_data s))%bool then ["n"%string] else []) ++ ["n"; "y"; "n"]%string)%list.
Fixpoint times {A} (n : nat) (l : list A) : list A := match n with O => [] | S n => (l ++ times n l)%list end.

Lemma ses_decline s rest : ses (AtModify s) (["n"; "n"]%string ++ rest)%list =
  (let '(st', ev) := ask_weights available_sigma guess odr s [1; 1; 1; 1]%nat in
   let '(st'', ev') := ses st' rest in (st'', (ev ++ ev')%list)).
Proof.
  cbn [app session]. change (stp (AtModify s) "n") with (AtFix s, @nil event). cbv iota beta. cbn [session].
  change (stp (AtFix s) "n") with (ask_weights available_sigma guess odr s [1; 1; 1; 1]%nat).
  destruct (ask_weights available_sigma guess odr s [1; 1; 1; 1]%nat) as (st', ev). destruct (ses st' rest). reflexivity.
Qed.
Lemma decline_once s k r : s_guess s = k :: r ->
  let k' := (if linearized (s_data s) then k * 3 else k) in
  exists p, ses (AtModify s) (decline s) = (AtModify (with_guess s (k' :: r)), [Fitted (s_data s) (s_eos s) p]) /\ start p = k' :: r.
Proof.
  intros G k'. destruct s as [d g e o]. cbn [s_guess] in G. subst g. unfold decline. cbn [s_data s_eos].
  exists (fst (fit (guess d) (Some (k :: r)) None None o (linearized d) (Some [1; 1; 1; 1]%nat))).
  split; [|reflexivity].
  set (s := {| s_data := d; s_guess := k :: r; s_eos := e; s_order := o |}).
  rewrite !ses_decline. change (s_data s) with d.
  assert (A : ask_weights available_sigma guess odr s [1; 1; 1; 1]%nat =
    if (available_sigma "p" || available_sigma d)%bool then (AtWeights s [1; 1; 1; 1]%nat, []) else do_fit guess odr s [1; 1; 1; 1]%nat None None) by reflexivity.
  rewrite A. destruct (available_sigma "p" || available_sigma d)%bool; reflexivity.
Qed.
(** n fits without updating the parameters: for axial data the n-th one starts
    from 3^n times the bulk modulus, and the last is what is shown next; for
    volumes every one starts from the displayed parameters. *)
Theorem C65_start_values_history n s k r :
  s_guess s = k :: r ->
  let f := if (s_data s =? "v")%string then 1 else 3 in
  let '(st, evs) := ses (AtModify s) (times n (decline s)) in
  st = AtModify (with_guess s (f ^ n * k :: r)) /\
  starts evs = map (fun i => f ^ i * k :: r) (seq 1 n).
Proof.
  intros G f. 
  assert (GEN : forall m s k, s_guess s = f ^ m * k :: r -> (if linearized (s_data s) then 3 else 1) = f ->
     let '(st, evs) := ses (AtModify s) (times n (decline s)) in
     st = AtModify (with_guess s (f ^ (m + n) * k :: r)) /\ starts evs = map (fun i => f ^ i * k :: r) (seq (S m) n)).
  { assert (CF : f = 1 \/ f = 3) by (unfold f; destruct (s_data s =? "v")%string; auto). clearbody f. clear s k G.
    induction n as [|n IH]; intros m s k G Hf.
    - cbn. rewrite Nat.add_0_r, <- G. destruct s; split; reflexivity.
    - cbn [times]. rewrite session_app.
      destruct (decline_once s _ _ G) as (p & E & SP). cbv zeta in E, SP. rewrite E.
      assert (EK : (if linearized (s_data s) then f ^ m * k * 3 else f ^ m * k) = f ^ (S m) * k).
      { cbn [pow]. destruct (linearized (s_data s)); rewrite <- Hf; ring. }
      rewrite EK in E, SP |- *.
      specialize (IH (S m) (with_guess s (f ^ S m * k :: r)) k eq_refl Hf).
      change (decline (with_guess s (f ^ S m * k :: r))) with (decline s) in IH.
      revert IH. destruct (ses (AtModify (with_guess s (f ^ S m * k :: r))) (times n (decline s))) as (st, evs).
      intros (IH1 & IH2). split.
      + rewrite IH1. unfold with_guess. cbn [s_data s_guess s_eos s_order]. do 2 f_equal. f_equal. f_equal. f_equal. lia.
      + cbn [app starts flat_map]. rewrite SP. cbn [app]. fold (starts evs). rewrite IH2. cbn [seq map]. reflexivity. }
  specialize (GEN 0%nat s k). cbn [pow plus] in GEN. rewrite Rmult_1_l in GEN. specialize (GEN G).
  apply GEN. unfold linearized, f. destruct (s_data s =? "v")%string; reflexivity.
Qed.

(** Without user-chosen fixed parameters all four are free at every order, the
    ones the report marks as implied included. *)
Theorem C65_implied_parameters_left_free s st evs :
  ses (AtModify s) (decline s) = (st, evs) -> s_guess s <> [] ->
  Forall (fun e => match e with Fitted _ _ p => free p = [1; 1; 1; 1]%nat /\ plan_order p = s_order s | Rejected => False end) evs /\ evs <> [].
Proof.
  intros E N. destruct (s_guess s) as [|k r] eqn:G; [congruence|].
  destruct s as [d g e o]. cbn [s_guess s_order] in *. subst g. revert E. unfold decline. rewrite ses_decline. cbn [s_data].
  set (s := {| s_data := d; s_guess := k :: r; s_eos := e; s_order := o |}).
  assert (A : ask_weights available_sigma guess odr s [1; 1; 1; 1]%nat =
    if (available_sigma "p" || available_sigma d)%bool then (AtWeights s [1; 1; 1; 1]%nat, []) else do_fit guess odr s [1; 1; 1; 1]%nat None None) by reflexivity.
  rewrite A. destruct (available_sigma "p" || available_sigma d)%bool; cbn; intros H; injection H as <- <-;
    (split; [repeat constructor|discriminate]).
Qed.
End SessionProps.

(** A concrete session: axis a, Birch-Murnaghan order 2, two fits, exit. *)
Example C64_instance :
  let ses := session (fun d => (d =? "a")%string) (fun _ => false) (fun _ => [100; 4; 0; 5]) (fun _ => Some 2%nat)
               (fun _ => None) (fun x => x) (fun _ _ _ => []) (AtData None) in
  let '(st, evs) := ses ["v"; "a"; "7"; "2"; "2"; "n"; "n"; "n"; "y"; "n"; "n"; "n"; "n"; "n"; ""]%string in
  st = Done /\ starts evs = [[100 * 3; 4; 0; 5]; [100 * 3 * 3; 4; 0; 5]].
Proof. cbn. split; reflexivity. Qed.

Print Assumptions C21_weighting.
Print Assumptions C21_pressure_uncertainties_ignored.
Print Assumptions C21_check_values.
Print Assumptions C21_free_parameters.
Print Assumptions C21_start_values.
Print Assumptions C22_parameters_kept.
Print Assumptions C22_parameters_overwritten.
Print Assumptions C22_fitted_array_changed_refuted.
Print Assumptions C22_normalised_curve.
Print Assumptions C22_observed_on_curve.
Print Assumptions C22_observed_from_data_only.
Print Assumptions C64_every_fit_is_offered.
Print Assumptions C64_rejected_answers_change_nothing.
Print Assumptions C64_exit_only_when_declined.
Print Assumptions C64_can_always_exit.
Print Assumptions C64_no_trap.
Print Assumptions C65_start_values_history.
Print Assumptions C65_implied_parameters_left_free.
