(** C104, continued: the tables which `quantas qha FILE --minim eos` writes for a solid
    whose isotherms follow an equation of state. *)
From Coq Require Import Reals String Ascii List Bool Arith ZArith Lia Lra.
From Coq Require Classical_Prop ClassicalDedekindReals.
From Flocq Require Import Core.
From Verif Require QhaReaderModel QhaRunModel QhaEqProps QhaFitProps CliModel CitationsModel RunLogProps StatMechModel StatMechSpec EvEosModel PolyModel PolyProps PolyfitProofs PvEosProps EvIdentProps EvPressureProps EosSavedProofs GuessModel.
From Verif Require Import Py DecimalModel UnitsModel UnitsSpec UnitsProps GridModel ReportModel ReportSpec H5Model PhononInputModel PhononInputProps HaCommandModel HaCommandProps
  QhaCommandModel QhaCommandProps QhaCommandProps2 QhaCommandProps3.
Import ListNotations.
Open Scope string_scope.
Open Scope list_scope.
Open Scope nat_scope.

Notation parameters := EvIdentProps.parameters.
Notation e0 := EvIdentProps.e0.
Notation k0 := EvIdentProps.k0.
Notation k1 := EvIdentProps.k1.
Notation v0 := EvIdentProps.v0.
Notation energy := EvIdentProps.energy.
Lemma formulation_tag t name form : formulation t name form -> EvEosModel.set_eos_type (eos_function_of t) = Some form.
Proof. intros [| | |]; reflexivity. Qed.
(** The isotherm follows the equation of state of parameters [p]. *)
Definition follows (h kB : R) (c : crystal) (m : in_si) (form : EvEosModel.ev_form) (T : R) (p : parameters) : Prop :=
  forall k, k < List.length (c_vols c) -> isotherm h kB c m T k = energy form p (volume_of c k).
(** Numbers a table may hold which are a volume, a modulus and its derivative. *)
Definition sensible (tag : string) (V KT Kp : R) : Prop :=
  (0 < V)%R /\ (0 < KT)%R /\ (tag = "M" -> Kp <> 0%R /\ Kp <> 1%R) /\ (tag = "V" -> Kp <> 1%R).
(** A fit which, given points on a curve of its form, returns the parameters of that
    curve, with errors which can be printed (EvIdentProps: there is only one). *)
Definition recovers (eos_fit : string -> nat -> (nat -> R) -> (nat -> R) -> QhaRunModel.outcome ((R * R * R * R) * (shown * shown * shown * shown))) (tag : string) : Prop :=
  forall form n V Y p, EvEosModel.set_eos_type tag = Some form -> EvIdentProps.physical p -> EvIdentProps.defined tag p ->
  PolyfitProofs.distinct n V -> EvIdentProps.enough tag <= n -> (forall k, k < n -> (0 < V k)%R /\ Y k = energy form p (V k)) ->
  exists e1 e2 e3 e4, eos_fit tag n V Y = QhaRunModel.Ok ((e0 p, k0 p, k1 p, v0 p), (e1, e2, e3, e4)) /\ forall e, In e [e1; e2; e3; e4] -> e <> Nan /\ forall z, e = Fin z -> (0 <= z)%R.
Section Saved.
Variable K : constants.
Variables hplanck kboltzmann : R.
Hypothesis PK : positive_constants K.
Hypotheses (Hh : (0 < hplanck)%R) (Hk : (0 < kboltzmann)%R).
Variable yaml_load : string -> QhaReaderModel.parsed.
Variable np_polyfit : nat -> (nat -> R) -> (nat -> R) -> nat -> list R.
Variable roots : list R -> list (R * R).
Variable eos_fit : string -> nat -> (nat -> R) -> (nat -> R) -> QhaRunModel.outcome ((R * R * R * R) * (shown * shown * shown * shown)).
Variable float_text : R -> string.
Variable times : nat -> string.
Variable total_time : string.
Variable encode : result_file -> string.
Variable special_case : qha_options -> QhaReaderModel.yaml -> CliModel.job.
Variables (u : qha_options) (f : string) (o : option string) (silent d : bool) (a : CliModel.result bool) (w : CliModel.world).
Variables (text : string) (y : QhaReaderModel.yaml) (c : crystal) (m : in_si).
Hypothesis PR : prepared K yaml_load np_polyfit u f o a w text y c m.
Hypothesis NA : acoustic u = false.
Hypothesis MI : minim u = "eos".
Hypothesis PV : forall v, In v (c_vols c) -> (0 < v)%R.
Notation completed := (computed K hplanck kboltzmann yaml_load np_polyfit roots eos_fit float_text times total_time encode special_case u f o silent d a w).
Notation tag := (eos_function_of (eos_tag u)).
Notation T i temps := (si (dt m) (nth i temps 0%R)).
Section Best.
Hypothesis TB : tabulates eos_fit u c.
Hypothesis MM : minimises hplanck kboltzmann roots eos_fit u c m.
Hypothesis BC : best_curves eos_fit.
Lemma curve_found form name T p0 q E0 KT K' VT k :
  formulation (eos_tag u) name form -> EvIdentProps.enough tag <= List.length (c_vols c) ->
  EvIdentProps.physical q -> EvIdentProps.defined tag q ->
  (forall k, k < List.length (c_vols c) -> (isotherm hplanck kboltzmann c m T k + p0 * volume_of c k = energy form q (volume_of c k))%R) ->
  sensible (eos_tag u) VT KT K' -> (KT * fst (dp m) = k * fst (ee m) / fst (ve m))%R ->
  (forall a0 b0 c0 w0, (PolyProps.psum (fun j => (form (volume_of c j) E0 k K' VT - p0 * volume_of c j - isotherm hplanck kboltzmann c m T j) ^ 2) (List.length (c_vols c)) <=
    PolyProps.psum (fun j => (form (volume_of c j) a0 b0 c0 w0 - p0 * volume_of c j - isotherm hplanck kboltzmann c m T j) ^ 2) (List.length (c_vols c)))%R) ->
  VT = v0 q /\ k = k0 q /\ K' = k1 q.
Proof.
  intros FN EN PH DF FO (S1 & S2 & S3 & S4) KE LS. destruct (positive_units K PK yaml_load np_polyfit u f o a w text y c m PR) as (U1 & U2 & U3).
  assert (KP : (0 < k)%R).
  { assert (Q : (0 < k * fst (ee m) / fst (ve m))%R) by (rewrite <- KE; now apply Rmult_lt_0_compat).
    apply Rmult_lt_reg_r with (fst (ee m) / fst (ve m))%R; [now apply Rdiv_lt_0_compat|]. rewrite Rmult_0_l. unfold Rdiv in *. now rewrite <- Rmult_assoc. }
  set (n := List.length (c_vols c)) in *.
  assert (Z : (PolyProps.psum (fun j => (form (volume_of c j) E0 k K' VT - p0 * volume_of c j - isotherm hplanck kboltzmann c m T j) ^ 2) n = 0)%R).
  { apply Rle_antisym.
    - eapply Rle_trans; [apply (LS (e0 q) (k0 q) (k1 q) (v0 q))|]. right. rewrite (PolyProps.psum_ext _ (fun _ => 0%R)); [apply PolyProps.psum_0|].
      intros j Hj. specialize (FO j Hj). unfold EvIdentProps.energy in FO. rewrite <- FO. ring.
    - apply PolyProps.psum_nonneg. intros j _. apply pow2_ge_0. }
  assert (ZZ : forall j, j < n -> ((form (volume_of c j) E0 k K' VT - p0 * volume_of c j - isotherm hplanck kboltzmann c m T j) ^ 2 = 0)%R).
  { intros j Hj. refine (PolyProps.psum_zero (fun j => ((form (volume_of c j) E0 k K' VT - p0 * volume_of c j - isotherm hplanck kboltzmann c m T j) ^ 2)%R) n _ Z j Hj). intros i _. apply pow2_ge_0. }
  assert (EQ : {| EvIdentProps.e0 := E0; EvIdentProps.k0 := k; EvIdentProps.k1 := K'; EvIdentProps.v0 := VT |} = q).
  { apply (EvIdentProps.C103_determined tag form _ q (c_vols c)); auto.
    - exact (formulation_tag _ _ _ FN).
    - split; cbn; assumption.
    - inversion FN as [X|X|X|X]; rewrite <- X in *; split; intros Q; try discriminate Q; cbn; auto.
    - exact (k_distinct _ _ _ _ _ _ _ _ _ _ _ _ PR).
    - intros V IV. split; [now apply PV|]. destruct (In_nth _ _ 0%R IV) as (j & Hj & <-). specialize (ZZ j Hj). specialize (FO j Hj).
      apply Rsqr_0_uniq in ZZ || (rewrite <- Rsqr_pow2 in ZZ; apply Rsqr_0_uniq in ZZ). change (nth j (c_vols c) 0%R) with (volume_of c j). rewrite <- FO. unfold EvIdentProps.energy. cbn. lra. }
  subst q. cbn. auto.
Qed.
(** A fit which returns the best curve. At zero pressure, with any of the four: the
    tables hold the volume, the modulus
    and its derivative of the isotherm. *)
Theorem C104_least_squares_zero : EvIdentProps.enough tag <= List.length (c_vols c) -> completed (fun temps press r => exists name form, formulation (eos_tag u) name form /\
  forall i j p, i < List.length temps -> j < List.length press -> nth j press 0%R = 0%R ->
  EvIdentProps.physical p -> EvIdentProps.defined tag p -> follows hplanck kboltzmann c m form (T i temps) p ->
  sensible (eos_tag u) (QhaRunModel.VT r i j) (QhaRunModel.KT r i j) (QhaRunModel.Kp r i j) ->
  QhaRunModel.VT r i j = v0 p /\ (QhaRunModel.KT r i j * fst (dp m) = k0 p * fst (ee m) / fst (ve m))%R /\ QhaRunModel.Kp r i j = k1 p).
Proof.
  intros EN. destruct (C96_best_curve K hplanck kboltzmann PK Hh Hk yaml_load np_polyfit roots eos_fit float_text times total_time encode special_case u f o silent d a w text y c m PR TB NA MM MI BC)
    as (v & h & temps & press & r & A & B & C & D & E & (name & form & FN & CL) & G).
  exists v, h, temps, press, r. repeat (split; [assumption|]). split; [|exact G]. exists name, form. split; [exact FN|].
  intros i j p Hi Hj Z PH DF FO SE. destruct (CL i j Hi Hj) as (p0 & E0 & k & EP & EK & LS). destruct (positive_units K PK yaml_load np_polyfit u f o a w text y c m PR) as (U1 & U2 & U3).
  assert (Q : p0 = 0%R).
  { rewrite Z, Rmult_0_r in EP. apply Rmult_integral in EP as [EP|EP]; [|apply Rinv_0_lt_compat in U2; lra]. apply Rmult_integral in EP as [|]; lra. }
  destruct (curve_found form name (T i temps) p0 p E0 (QhaRunModel.KT r i j) (QhaRunModel.Kp r i j) (QhaRunModel.VT r i j) k FN EN PH DF) as (Q1 & Q2 & Q3); auto.
  - intros l Hl. rewrite (FO l Hl), Q. ring.
  - rewrite EK, Q2. auto.
Qed.
(** A Murnaghan solid under pressure: the volume at which its equation of state has
    the pressure, which is the only minimum of F + PV; K0 + K' P; and K'. *)
Theorem C104_least_squares : eos_tag u = "M" -> completed (fun temps press r =>
  forall i j p p0, i < List.length temps -> j < List.length press -> (p0 * fst (ee m) / fst (ve m) = fst (dp m) * nth j press 0)%R ->
  EvIdentProps.physical p -> EvIdentProps.defined "murnaghan" p -> follows hplanck kboltzmann c m EvEosModel.ev_murnaghan (T i temps) p -> (0 < k0 p + k1 p * p0)%R ->
  let V := QhaRunModel.VT r i j in sensible "M" V (QhaRunModel.KT r i j) (QhaRunModel.Kp r i j) ->
  PvEosProps.murnaghan_textbook (k0 p) (k1 p) (v0 p) V = p0 /\
  (forall V', (0 < V')%R -> V' <> V -> (energy EvEosModel.ev_murnaghan p V + p0 * V < energy EvEosModel.ev_murnaghan p V' + p0 * V')%R) /\
  (QhaRunModel.KT r i j * fst (dp m) = (k0 p + k1 p * p0) * fst (ee m) / fst (ve m))%R /\ QhaRunModel.Kp r i j = k1 p).
Proof.
  intros TM. destruct (C96_best_curve K hplanck kboltzmann PK Hh Hk yaml_load np_polyfit roots eos_fit float_text times total_time encode special_case u f o silent d a w text y c m PR TB NA MM MI BC)
    as (v & h & temps & press & r & A & B & C & D & E & (name & form & FN & CL) & G).
  exists v, h, temps, press, r. repeat (split; [assumption|]). split; [|exact G].
  intros i j p p0 Hi Hj EP PH DF FO PP V SE. destruct (CL i j Hi Hj) as (p0' & E0 & k & EP' & EK & LS). destruct (positive_units K PK yaml_load np_polyfit u f o a w text y c m PR) as (U1 & U2 & U3).
  assert (Q : p0' = p0).
  { apply Rmult_eq_reg_r with (fst (ee m) / fst (ve m))%R; [|apply Rgt_not_eq; now apply Rdiv_lt_0_compat]. unfold Rdiv in *. rewrite <- !Rmult_assoc. congruence. }
  subst p0'. assert (FM : form = EvEosModel.ev_murnaghan) by (rewrite TM in FN; now inversion FN). subst form.
  set (q := EvPressureProps.at_pressure p p0).
  assert (MS : forall W, (0 < W)%R -> energy EvEosModel.ev_murnaghan q W = (energy EvEosModel.ev_murnaghan p W + p0 * W)%R) by (intros W HW; now apply EvPressureProps.C104_murnaghan).
  destruct (EvPressureProps.C104_murnaghan p p0 1 PH DF PP Rlt_0_1) as (_ & QV & QP & _). fold q in QV, QP.
  destruct (curve_found EvEosModel.ev_murnaghan name (T i temps) p0 q E0 (QhaRunModel.KT r i j) (QhaRunModel.Kp r i j) (QhaRunModel.VT r i j) k FN) as (Q1 & Q2 & Q3); auto.
  - rewrite TM. exact (k_four _ _ _ _ _ _ _ _ _ _ _ _ PR).
  - split; [exact PP|exact QV].
  - rewrite TM. exact DF.
  - intros l Hl. rewrite (FO l Hl). symmetry. apply MS. apply PV. now apply nth_In.
  - now rewrite TM.
  - fold V in Q1. split; [rewrite Q1; exact QP|]. split; [|split; [rewrite EK, Q2; reflexivity|exact Q3]].
    intros V' P' N'. rewrite Q1 in *. now apply (EvPressureProps.C104_murnaghan p p0 V' PH DF PP P').
Qed.
End Best.

(** The fit recovers the curves. *)
Lemma vols_distinct : PolyfitProofs.distinct (List.length (c_vols c)) (volume_of c).
Proof.
  intros i j Hi Hj E. pose proof (k_distinct _ _ _ _ _ _ _ _ _ _ _ _ PR) as ND. exact (proj1 (NoDup_nth (c_vols c) 0%R) ND i j Hi Hj E).
Qed.
Lemma vols_positive k : k < List.length (c_vols c) -> (0 < volume_of c k)%R.
Proof. intros Hl. apply PV. now apply nth_In. Qed.
Lemma on_curve V (Y : nat -> R) form p : recovers eos_fit tag -> EvEosModel.set_eos_type tag = Some form -> EvIdentProps.physical p -> EvIdentProps.defined tag p -> EvIdentProps.enough tag <= List.length (c_vols c) ->
  (forall k, k < List.length (c_vols c) -> V k = volume_of c k /\ Y k = energy form p (volume_of c k)) ->
  exists e1 e2 e3 e4, eos_fit tag (List.length (c_vols c)) V Y = QhaRunModel.Ok ((e0 p, k0 p, k1 p, v0 p), (e1, e2, e3, e4)) /\ forall e, In e [e1; e2; e3; e4] -> e <> Nan /\ forall z, e = Fin z -> (0 <= z)%R.
Proof.
  intros RC TF PH DF EN H. apply (RC form); auto.
  - intros i j Hi Hj E. destruct (H i Hi) as (A & _). destruct (H j Hj) as (B & _). rewrite A, B in E. now apply vols_distinct.
  - intros k Hl. destruct (H k Hl) as (A & B). rewrite B, A. split; [now apply vols_positive|reflexivity].
Qed.
Lemma static_tabulates form p : recovers eos_fit tag -> EvEosModel.set_eos_type tag = Some form -> EvIdentProps.physical p -> EvIdentProps.defined tag p -> EvIdentProps.enough tag <= List.length (c_vols c) ->
  (forall k, k < List.length (c_vols c) -> nth k (c_ens c) 0%R = energy form p (volume_of c k)) -> tabulates eos_fit u c.
Proof.
  intros RC TF PH DF EN H. right. split; [exact MI|]. intros V E VE. destruct (on_curve V E form p RC TF PH DF EN) as (e1 & e2 & e3 & e4 & A & B).
  - intros k Hl. destruct (VE k Hl) as (VA & VB). split; [exact VA|]. rewrite VB. now apply H.
  - eexists _, e1, e2, e3, e4. split; [exact A|exact B].
Qed.
(** Tables whose entries are the parameters of curves through F + PV *)
Lemma saved_curves form : recovers eos_fit tag -> EvEosModel.set_eos_type tag = Some form -> EvIdentProps.enough tag <= List.length (c_vols c) ->
  tabulates eos_fit u c -> minimises hplanck kboltzmann roots eos_fit u c m -> completed (fun temps press r =>
  forall i j p0 p, i < List.length temps -> j < List.length press -> (p0 * fst (ee m) / fst (ve m) = fst (dp m) * nth j press 0)%R ->
  EvIdentProps.physical p -> EvIdentProps.defined tag p ->
  (forall k, k < List.length (c_vols c) -> (isotherm hplanck kboltzmann c m (T i temps) k + p0 * volume_of c k = energy form p (volume_of c k))%R) ->
  QhaRunModel.VT r i j = v0 p /\ (QhaRunModel.KT r i j * fst (dp m) = k0 p * fst (ee m) / fst (ve m))%R /\ QhaRunModel.Kp r i j = k1 p).
Proof.
  intros RC TF EN TB MM. apply (computed_by K hplanck kboltzmann PK Hh Hk yaml_load np_polyfit roots eos_fit float_text times total_time encode special_case u f o silent d a w text y c m PR TB NA MM).
  intros x r h I RR HA i j p0 p Hi Hj EP PH DF FO. pose proof I as (N & V & _). destruct (k_units _ _ _ _ _ _ _ _ _ _ _ _ PR) as (Me & Mee & Mv & Mve & Mf & Mt & Mp).
  destruct (positive_units K PK yaml_load np_polyfit u f o a w text y c m PR) as (U1 & U2 & U3).
  destruct (EosSavedProofs.eos_saved K hplanck kboltzmann PK np_polyfit roots (eos_parameters eos_fit) (fun _ _ => 0%R) (fun _ _ => 0%R) (qha_settings u) x (points (temperatures u)) (points (pressures u)) r h (ee m) (ve m) (dp m))
    with (i := i) (j := j) as (p0' & E0 & k & Y & A & B & C & D); auto.
  { exact (scheme_known K yaml_load np_polyfit u f o a w text y c m PR). }
  assert (Q : p0' = p0).
  { apply Rmult_eq_reg_r with (fst (ee m) / fst (ve m))%R; [|apply Rgt_not_eq; now apply Rdiv_lt_0_compat]. unfold Rdiv in *. rewrite <- !Rmult_assoc. congruence. }
  subst p0'. destruct (on_curve (QhaRunModel.volume x) Y form p RC TF PH DF EN) as (e1 & e2 & e3 & e4 & F1 & _).
  - intros l Hl. rewrite N in C. split; [now apply V|]. rewrite C, V by assumption.
    rewrite (ha_isotherm K hplanck kboltzmann PK Hh Hk (qha_settings u) c m x I (given_few K yaml_load np_polyfit u f o a w text y c m PR) (k_energies _ _ _ _ _ _ _ _ _ _ _ _ PR) (points (temperatures u)) h HA Me Mf Mt); try assumption.
    + now apply FO.
    + eapply kelvin_points; eauto.
  - unfold eos_parameters in D. cbn [QhaRunModel.eos_function qha_settings] in D. rewrite N, F1 in D. cbn [QhaRunModel.bind fst] in D. injection D as D1 D2 D3 D4.
    rewrite <- D2 in B. auto.
Qed.
(** The static energies follow an equation of state of this form. *)
Definition static_follows (form : EvEosModel.ev_form) : Prop := exists p, EvIdentProps.physical p /\ EvIdentProps.defined tag p /\
  forall k, k < List.length (c_vols c) -> nth k (c_ens c) 0%R = energy form p (volume_of c k).
(** Only zero pressure, with any of the four: the tables hold the volume, the modulus
    and its derivative of the isotherms. *)
Theorem C104_zero_pressure form (p : R -> parameters) : recovers eos_fit tag -> EvEosModel.set_eos_type tag = Some form -> EvIdentProps.enough tag <= List.length (c_vols c) ->
  static_follows form -> (forall press, asked (pressures u) press -> forall x, In x press -> x = 0%R) ->
  (forall temps, asked (temperatures u) temps -> forall t, In t temps -> EvIdentProps.physical (p t) /\ EvIdentProps.defined tag (p t) /\ follows hplanck kboltzmann c m form (si (dt m) t) (p t)) ->
  completed (fun temps press r => forall i j, i < List.length temps -> j < List.length press -> let t := nth i temps 0%R in
  QhaRunModel.VT r i j = v0 (p t) /\ (QhaRunModel.KT r i j * fst (dp m) = k0 (p t) * fst (ee m) / fst (ve m))%R /\ QhaRunModel.Kp r i j = k1 (p t)).
Proof.
  intros RC TF EN (ps & PS & DS & SF) ZP H. destruct (positive_units K PK yaml_load np_polyfit u f o a w text y c m PR) as (U1 & U2 & U3).
  assert (ZZ : forall p0, (p0 * fst (ee m) / fst (ve m) = fst (dp m) * 0)%R -> p0 = 0%R).
  { intros p0 EP. rewrite Rmult_0_r in EP. apply Rmult_integral in EP as [EP|EP]; [|apply Rinv_0_lt_compat in U2; lra]. apply Rmult_integral in EP as [|]; lra. }
  destruct (saved_curves form RC TF EN) as (v & h & temps & press & r & A & B & C & D & E & CL & G).
  - exact (static_tabulates form ps RC TF PS DS EN SF).
  - right. split; [exact MI|]. intros temps press AT AP t x p0 V Y It Ix EP VY. rewrite (ZP press AP x Ix) in EP. apply ZZ in EP. subst p0. destruct (H temps AT t It) as (PH & DF & FO).
    destruct (on_curve V Y form (p t) RC TF PH DF EN) as (e1 & e2 & e3 & e4 & F1 & _); [|eauto]. intros k Hl. destruct (VY k Hl) as (V1 & Y1). split; [exact V1|]. rewrite Y1, (FO k Hl). ring.
  - exists v, h, temps, press, r. repeat (split; [assumption|]). split; [|exact G]. intros i j Hi Hj t. destruct (H temps D t (nth_In _ _ Hi)) as (PH & DF & FO).
    apply (CL i j 0%R (p t)); auto.
    + rewrite (ZP press E _ (nth_In _ _ Hj)). unfold Rdiv. ring.
    + intros k Hl. rewrite Rmult_0_l, Rplus_0_r. now apply FO.
Qed.
(** A Murnaghan solid under pressure: the volume at which its equation of state has
    the pressure, which is the only minimum of F + PV; K0 + K' P; and K'. *)
Theorem C104_command (p : R -> parameters) : eos_tag u = "M" -> recovers eos_fit "murnaghan" -> static_follows EvEosModel.ev_murnaghan ->
  (forall temps press, asked (temperatures u) temps -> asked (pressures u) press -> forall t, In t temps -> EvIdentProps.physical (p t) /\ EvIdentProps.defined "murnaghan" (p t) /\
    follows hplanck kboltzmann c m EvEosModel.ev_murnaghan (si (dt m) t) (p t) /\
    forall x p0, In x press -> (p0 * fst (ee m) / fst (ve m) = fst (dp m) * x)%R -> (0 < k0 (p t) + k1 (p t) * p0)%R) ->
  completed (fun temps press r => forall i j p0, i < List.length temps -> j < List.length press -> (p0 * fst (ee m) / fst (ve m) = fst (dp m) * nth j press 0)%R ->
  let q := p (nth i temps 0%R) in let V := QhaRunModel.VT r i j in
  (0 < V)%R /\ PvEosProps.murnaghan_textbook (k0 q) (k1 q) (v0 q) V = p0 /\
  (forall V', (0 < V')%R -> V' <> V -> (energy EvEosModel.ev_murnaghan q V + p0 * V < energy EvEosModel.ev_murnaghan q V' + p0 * V')%R) /\
  (QhaRunModel.KT r i j * fst (dp m) = (k0 q + k1 q * p0) * fst (ee m) / fst (ve m))%R /\ QhaRunModel.Kp r i j = k1 q).
Proof.
  intros TM RC SF H. assert (TG : tag = "murnaghan") by (rewrite TM; reflexivity). rewrite <- TG in RC. assert (TF : EvEosModel.set_eos_type tag = Some EvEosModel.ev_murnaghan) by (rewrite TG; reflexivity).
  assert (EN : EvIdentProps.enough tag <= List.length (c_vols c)) by (rewrite TG; exact (k_four _ _ _ _ _ _ _ _ _ _ _ _ PR)).
  destruct SF as (ps & PS & DS & SF). 
  assert (AT : forall temps press t x p0, asked (temperatures u) temps -> asked (pressures u) press -> In t temps -> In x press -> (p0 * fst (ee m) / fst (ve m) = fst (dp m) * x)%R ->
    let q := EvPressureProps.at_pressure (p t) p0 in EvIdentProps.physical q /\ EvIdentProps.defined tag q /\
    forall k, k < List.length (c_vols c) -> (isotherm hplanck kboltzmann c m (si (dt m) t) k + p0 * volume_of c k = energy EvEosModel.ev_murnaghan q (volume_of c k))%R).
  { intros temps press t x p0 A1 A2 It Ix EP q. destruct (H temps press A1 A2 t It) as (PH & DF & FO & MP). specialize (MP x p0 Ix EP). rewrite TG.
    destruct (EvPressureProps.C104_murnaghan (p t) p0 1 PH DF MP Rlt_0_1) as (_ & QV & _). fold q in QV. split; [split; [exact MP|exact QV]|]. split; [exact DF|].
    intros k Hl. rewrite (FO k Hl). symmetry. apply EvPressureProps.C104_murnaghan; auto. now apply vols_positive. }
  destruct (saved_curves EvEosModel.ev_murnaghan RC TF EN) as (v & h & temps & press & r & A & B & C & D & E & CL & G).
  - exact (static_tabulates EvEosModel.ev_murnaghan ps RC TF PS DS EN SF).
  - right. split; [exact MI|]. intros temps press A1 A2 t x p0 V Y It Ix EP VY. destruct (AT temps press t x p0 A1 A2 It Ix EP) as (PH & DF & FO).
    destruct (on_curve V Y _ _ RC TF PH DF EN) as (e1 & e2 & e3 & e4 & F1 & _); [|eauto]. intros k Hl. destruct (VY k Hl) as (V1 & Y1). split; [exact V1|]. rewrite Y1, V1. now apply FO.
  - exists v, h, temps, press, r. repeat (split; [assumption|]). split; [|exact G]. intros i j p0 Hi Hj EP q V.
    destruct (AT temps press _ _ p0 D E (nth_In _ 0%R Hi) (nth_In _ 0%R Hj) EP) as (PH & DF & FO). destruct (CL i j p0 _ Hi Hj EP PH DF FO) as (Q1 & Q2 & Q3).
    destruct (H temps press D E _ (nth_In _ 0%R Hi)) as (PH0 & DF0 & _ & MP). specialize (MP _ p0 (nth_In _ 0%R Hj) EP). fold q in PH0, DF0, MP, Q1.
    destruct (EvPressureProps.C104_murnaghan q p0 1 PH0 DF0 MP Rlt_0_1) as (_ & QV & QP & _). fold V in Q1. rewrite Q1. split; [exact QV|]. split; [exact QP|]. split; [|split; [exact Q2|exact Q3]].
    intros V' P' N'. now apply (EvPressureProps.C104_murnaghan q p0 V' PH0 DF0 MP P').
Qed.
End Saved.

(** ** A Murnaghan solid *)
Definition choose_M (t p : R * R * R) : qha_options :=
  {| scheme := "td"; minim := "eos"; acoustic := false; temperatures := t; pressures := p; energy_degree := 2; frequency_degree := 1;
     eos_tag := "M"; eunit_q := "Ha"; vunit_q := "A"; funit_q := "cm-1"; tunit_q := "K"; punit_q := "GPa" |}.
Definition solid (e : R) : parameters := {| EvIdentProps.e0 := e; EvIdentProps.k0 := 1; EvIdentProps.k1 := 4; EvIdentProps.v0 := 11 |}.
Definition murn : list R := map (energy EvEosModel.ev_murnaghan (solid 0)) four.
(** A fit which recovers curves: it returns parameters through the points, if any. *)
Definition through (form : EvEosModel.ev_form) (tag : string) (n : nat) (V Y : nat -> R) (p : parameters) : Prop :=
  EvIdentProps.physical p /\ EvIdentProps.defined tag p /\ forall k, k < n -> (0 < V k)%R /\ Y k = energy form p (V k).
Definition determinate (form : EvEosModel.ev_form) (tag : string) (n : nat) (V Y : nat -> R) : Prop :=
  EvEosModel.set_eos_type tag = Some form /\ PolyfitProofs.distinct n V /\ EvIdentProps.enough tag <= n /\ exists p, through form tag n V Y p.
Lemma only_one form tag n V Y p q : determinate form tag n V Y -> through form tag n V Y p -> through form tag n V Y q -> p = q.
Proof.
  intros (TF & D & EN & _) (A1 & A2 & A3) (B1 & B2 & B3). apply (EvIdentProps.C103_determined tag form p q (map V (seq 0 n))); auto.
  - apply (NoDup_nth _ 0%R). rewrite map_length, seq_length. intros i j Hi Hj E.
    rewrite !(nth_indep (map V (seq 0 n)) 0%R (V 0)), !map_nth, !seq_nth in E by (rewrite ?map_length, ?seq_length; assumption). now apply D.
  - now rewrite map_length, seq_length.
  - intros W I. apply in_map_iff in I as (k & <- & I). apply in_seq in I. destruct (A3 k ltac:(lia)) as (PW & EA). destruct (B3 k ltac:(lia)) as (_ & EB). split; [exact PW|congruence].
Qed.
Lemma select (E : R -> Prop) : (exists x, E x /\ forall y, E y -> y = x) -> {x | E x}.
Proof.
  intros H. destruct (completeness E) as (m & U & L).
  - destruct H as (x & _ & Q). exists x. intros y Y. rewrite (Q y Y). lra.
  - destruct H as (x & X & _). eauto.
  - exists m. destruct H as (x & X & Q). replace m with x; [exact X|]. apply Rle_antisym; [now apply U|]. apply L. intros y Y. rewrite (Q y Y). lra.
Qed.
Lemma chosen form tag n V Y (g : parameters -> R) : determinate form tag n V Y -> exists x, (exists p, through form tag n V Y p /\ x = g p) /\ forall y, (exists p, through form tag n V Y p /\ y = g p) -> y = x.
Proof.
  intros D. pose proof D as (_ & _ & _ & p & TP). exists (g p). split; [eauto|]. intros y (q & TQ & ->). f_equal. now apply (only_one form tag n V Y).
Qed.
Definition component form tag n V Y (D : determinate form tag n V Y) (g : parameters -> R) : R := proj1_sig (select _ (chosen form tag n V Y g D)).
Lemma component_value form tag n V Y D g p : through form tag n V Y p -> component form tag n V Y D g = g p.
Proof.
  intros TP. unfold component. destruct (select _ _) as (x & q & TQ & E). cbn. rewrite E. f_equal. now apply (only_one form tag n V Y).
Qed.
Definition decide (Q : Prop) : {Q} + {~ Q} := match ClassicalDedekindReals.sig_not_dec Q with Specif.left n => Specif.left (Classical_Prop.NNPP Q n) | Specif.right n => Specif.right n end.
Definition recovering_fit (tag : string) (n : nat) (V Y : nat -> R) : QhaRunModel.outcome ((R * R * R * R) * (shown * shown * shown * shown)) :=
  match EvEosModel.set_eos_type tag with
  | None => QhaRunModel.Raises "TypeError"
  | Some form => match decide (determinate form tag n V Y) with
    | Specif.left D => let g := component form tag n V Y D in QhaRunModel.Ok ((g e0, g k0, g k1, g v0), (Fin 0, Fin 0, Fin 0, Fin 0)%R)
    | Specif.right _ => QhaRunModel.Raises "RuntimeError"
    end
  end.
Lemma fit_recovers tag : recovers recovering_fit tag.
Proof.
  intros form n V Y p TF PH DF D EN H. assert (TP : through form tag n V Y p) by (split; [exact PH|]; split; [exact DF|exact H]).
  unfold recovering_fit. rewrite TF. destruct (decide _) as [DD|ND]; [|exfalso; apply ND; repeat (split; [assumption|]); eauto].
  cbv zeta. rewrite !(component_value form tag n V Y DD _ p TP). eexists _, _, _, _. split; [reflexivity|].
  intros e [<-|[<-|[<-|[<-|[]]]]]; (split; [discriminate|]); intros z Z; injection Z as <-; lra.
Qed.
(** It is also a least-squares fit. *)
Lemma recovering_best : best_curves recovering_fit.
Proof.
  intros tg g n V Y a b c0 d errors TF E. unfold recovering_fit in E. rewrite TF in E. destruct (decide _) as [DD|]; [|discriminate]. cbv zeta in E. pose proof DD as (_ & _ & _ & p & TP).
  rewrite !(component_value g tg n V Y DD _ p TP) in E. injection E as <- <- <- <- _. intros a0 b0 c1 w0.
  rewrite (PolyProps.psum_ext _ (fun _ => 0%R)).
  - rewrite PolyProps.psum_0. apply PolyProps.psum_nonneg. intros j _. apply pow2_ge_0.
  - intros j Hj. destruct TP as (_ & _ & H). destruct (H j Hj) as (_ & ->). unfold EvIdentProps.energy. ring.
Qed.
Lemma solid_prepared t p ens : good_range t -> p = pressed \/ p = pressless -> List.length ens = 4 ->
  prepared codata (fun _ => QhaReaderModel.Parsed (good ens)) PolyfitProofs.gram_schmidt_fit (choose_M t p) "run/MgO.yaml" None (CliModel.Ok false) (sample_disk "text") "text" (good ens) (good_crystal ens) good_si.
Proof.
  intros G P0 L. split.
  - split; [cbn; tauto|split; [cbn; tauto|split; cbn; tauto]|reflexivity|discriminate|discriminate].
  - destruct G as [->| ->]; cbn; lra.
  - destruct P0 as [->| ->]; cbn; lra.
  - reflexivity.
  - apply good_said.
  - cbn. lia.
  - exact L.
  - cbn [c_vols good_crystal four]. repeat constructor; cbn [In]; lra.
  - cbn. lia.
  - apply PolyfitProofs.gram_schmidt_solver.
  - left. reflexivity.
  - repeat split; reflexivity.
  - intros temps AT x X. pose proof (asked_kelvin t temps G AT x X). cbn [dt good_si]. unfold si. cbn. lra.
Qed.
Definition constant_of (T : R) : R :=
  (modes_at (good_crystal murn) (fun q b => si (df good_si) (c_F (good_crystal murn) q b 0)) (oscillator_F (6 / 10 ^ 34) (1 / 10 ^ 23) T) / fst (de good_si))%R.
Lemma murn_nth k : k < 4 -> nth k murn 0%R = energy EvEosModel.ev_murnaghan (solid 0) (nth k four 0%R).
Proof. intros Hl. destruct k as [|[|[|[|k]]]]; try lia; reflexivity. Qed.
(** The tables of this solid at 0 and 5 GPa: K' is 4 everywhere, K is 1 at zero pressure,
    and the volume at zero pressure is 11. *)
Example C104_instance_command : exists v h temps press r,
  qha_main codata (6 / 10 ^ 34) (1 / 10 ^ 23) (fun _ => QhaReaderModel.Parsed (good murn)) PolyfitProofs.gram_schmidt_fit QhaEqProps.linear_roots recovering_fit (fun _ => "0.0") (fun _ => "    0.01") "  0.06" (fun h => "h5")
    (fun _ _ => no_input) (choose_M sixty pressed) "run/MgO.yaml" None true false (CliModel.Ok false) (sample_disk "text") = (CliModel.Ok tt, v) /\
  holds (choose_M sixty pressed) h temps press r /\ List.length temps = 60 /\ 1 < List.length press /\ (forall i j, i < 60 -> j < List.length press -> QhaRunModel.Kp r i j = 4%R) /\
  forall i p0, i < 60 -> (p0 * Ha_J codata / (Angstrom_m codata) ^ 3 = 10 ^ 9 * 5)%R ->
    PvEosProps.murnaghan_textbook 1 4 11 (QhaRunModel.VT r i 1) = p0 /\ (QhaRunModel.KT r i 1%nat * 10 ^ 9 = (1 + 4 * p0) * Ha_J codata / (Angstrom_m codata) ^ 3)%R.
Proof.
  destruct constants_positive as (H1 & H2). assert (HA : (0 < Ha_J codata)%R) by apply codata_positive. assert (AA : (0 < Angstrom_m codata ^ 3)%R) by (apply pow_lt, codata_positive).
  edestruct C104_command with (yaml_load := fun _ : string => QhaReaderModel.Parsed (good murn)) (p := fun t => solid (constant_of (si (dt good_si) t))) as (v & h & temps & press & r & E & S1 & S2 & AT & AP & CL & _);
    [exact codata_positive|exact H1|exact H2|apply (solid_prepared sixty pressed murn (or_introl eq_refl) (or_introl eq_refl) eq_refl)|reflexivity|reflexivity| |reflexivity|apply fit_recovers| | |].
  - intros x X. cbn in X. repeat destruct X as [<-|X]; try lra; contradiction.
  - exists (solid 0). split; [split; cbn; lra|]. split; [split; intros _; cbn; lra|]. exact murn_nth.
  - intros temps press AT AP t It. split; [split; cbn; lra|]. split; [split; intros _; cbn; lra|]. split.
    + intros k Hl. unfold volume_of. cbn [c_vols good_crystal]. unfold isotherm. cbn [c_ens good_crystal]. rewrite (murn_nth k Hl). unfold EvIdentProps.energy, EvEosModel.ev_murnaghan. cbn [solid EvIdentProps.e0 EvIdentProps.k0 EvIdentProps.k1 EvIdentProps.v0].
      change (modes_at (good_crystal murn) (fun q b => si (df good_si) (c_F (good_crystal murn) q b k)) (oscillator_F (6 / 10 ^ 34) (1 / 10 ^ 23) (si (dt good_si) t)) / fst (de good_si))%R with (constant_of (si (dt good_si) t)). ring.
    + intros x p0 Ix EP. cbn [solid EvIdentProps.k0 EvIdentProps.k1 ee ve dp good_si fst] in *.
      assert (0 <= x)%R. { destruct AP as (P1 & _). destruct (In_nth _ _ 0%R Ix) as (k & Hl & <-). rewrite P1 by exact Hl. cbn. pose proof (pos_INR k). lra. }
      assert (0 <= p0)%R; [|lra]. apply Rmult_le_reg_r with (Ha_J codata / Angstrom_m codata ^ 3)%R; [now apply Rdiv_lt_0_compat|]. rewrite Rmult_0_l. unfold Rdiv in *. rewrite <- Rmult_assoc, EP. apply Rmult_le_pos; [|assumption]. apply pow_le; lra.
  - pose proof (sixty_points _ AT) as L. exists v, h, temps, press, r. split; [exact E|]. split; [exact S2|]. split; [exact L|].
    destruct AP as (P1 & Up & _). cbn [fst snd pressed temperatures pressures choose_M] in P1, Up. assert (J : 1 < List.length press) by (apply Up; [lra|]; cbn; lra). split; [exact J|]. split.
    + intros i j Hi Hj. destruct (CL i j (fst (dp good_si) * nth j press 0 * fst (ve good_si) / fst (ee good_si))%R) as (_ & _ & _ & _ & Q); [now rewrite L|exact Hj| |exact Q].
      cbn [ee ve dp good_si fst]. assert (0 < Angstrom_m codata)%R by apply codata_positive. field. lra.
    + intros i p0 Hi EP. destruct (CL i 1 p0) as (_ & Q1 & _ & Q2 & _); [now rewrite L|exact J| |split; [exact Q1|exact Q2]].
      cbn [ee ve dp good_si fst]. rewrite EP, P1 by exact J. cbn. ring.
Qed.
(** What the theorems about least-squares fits ask. *)
Example C104_instance_least_squares : best_curves recovering_fit /\ sensible "M" 11 1 4 /\ EvIdentProps.physical (solid 0) /\ EvIdentProps.defined "murnaghan" (solid 0) /\ forall v, In v (c_vols (good_crystal murn)) -> (0 < v)%R.
Proof.
  split; [exact recovering_best|]. split; [split; [lra|split; [lra|split; intros _; lra]]|]. split; [split; cbn; lra|]. split; [split; intros _; cbn; lra|].
  intros x X. cbn in X. repeat destruct X as [<-|X]; try lra; contradiction.
Qed.
(** A Birch-Murnaghan solid at zero pressure *)
Example C104_instance_zero : exists v h temps press r,
  qha_main codata (6 / 10 ^ 34) (1 / 10 ^ 23) (fun _ => QhaReaderModel.Parsed (good birch)) PolyfitProofs.gram_schmidt_fit QhaEqProps.linear_roots recovering_fit (fun _ => "0.0") (fun _ => "    0.01") "  0.06" (fun h => "h5")
    (fun _ _ => no_input) (choose "freq" "eos" false sixty pressless) "run/MgO.yaml" None true false (CliModel.Ok false) (sample_disk "text") = (CliModel.Ok tt, v) /\
  holds (choose "freq" "eos" false sixty pressless) h temps press r /\ List.length temps = 60 /\ 0 < List.length press /\
  forall i, i < 60 -> QhaRunModel.VT r i 0 = 11%R /\ QhaRunModel.Kp r i 0 = 4%R /\ (QhaRunModel.KT r i 0%nat * 10 ^ 9 = 1 * Ha_J codata / (Angstrom_m codata) ^ 3)%R.
Proof.
  destruct constants_positive as (H1 & H2).
  assert (NB : forall k, k < 4 -> nth k birch 0%R = energy EvEosModel.ev_birchmurnaghan (solid 0) (nth k four 0%R)) by (intros k Hl; destruct k as [|[|[|[|k]]]]; try lia; reflexivity).
  edestruct C104_zero_pressure with (yaml_load := fun _ : string => QhaReaderModel.Parsed (good birch)) (form := EvEosModel.ev_birchmurnaghan)
      (p := fun t => solid (modes_at (good_crystal birch) (fun q b => si (df good_si) (c_F (good_crystal birch) q b 0)) (oscillator_F (6 / 10 ^ 34) (1 / 10 ^ 23) (si (dt good_si) t)) / fst (de good_si))%R)
      as (v & h & temps & press & r & E & S1 & S2 & AT & AP & CL & _);
    [exact codata_positive|exact H1|exact H2|apply (good_prepared "freq" "eos" false sixty pressless birch ltac:(cbn; tauto) ltac:(cbn; tauto) (or_introl eq_refl) (or_intror eq_refl) eq_refl)|reflexivity|reflexivity| |apply fit_recovers|reflexivity|cbn; lia| | | |].
  - intros x X. cbn in X. repeat destruct X as [<-|X]; try lra; contradiction.
  - exists (solid 0). split; [split; cbn; lra|]. split; [split; discriminate|exact NB].
  - exact pressless_points.
  - intros temps AT t It. split; [split; cbn; lra|]. split; [split; discriminate|]. intros k Hl. unfold volume_of. cbn [c_vols good_crystal]. unfold isotherm. cbn [c_ens good_crystal]. rewrite (NB k Hl).
    unfold EvIdentProps.energy, EvEosModel.ev_birchmurnaghan. cbn [solid EvIdentProps.e0 EvIdentProps.k0 EvIdentProps.k1 EvIdentProps.v0].
    match goal with |- context [(modes_at ?c0 ?w0 ?g0 / ?x0 + _)%R] => change (modes_at (good_crystal birch) (fun q b => si (df good_si) (c_F (good_crystal birch) q b k)) g0) with (modes_at c0 w0 g0) end. ring.
  - pose proof (sixty_points _ AT) as L. exists v, h, temps, press, r. split; [exact E|]. split; [exact S2|]. split; [exact L|].
    destruct AP as (P1 & Up & _). cbn [fst snd pressless temperatures pressures choose] in P1, Up. assert (J : 0 < List.length press) by (apply Up; [lra|]; cbn; lra). split; [exact J|].
    intros i Hi. destruct (CL i 0) as (Q1 & Q2 & Q3); [now rewrite L|exact J|]. split; [exact Q1|]. split; [exact Q3|exact Q2].
Qed.

(** ** The fit of the project *)
(** scipy's curve_fit, started anywhere on points which lie on a curve, ends with
    parameters of a curve through the points. *)
Definition converges (curve_fit : EvIdentProps.curve_fitter) (tag : string) : Prop :=
  forall form n V Y start, determinate form tag n V Y -> exists q c1 c2 c3 c4, curve_fit form n V Y start = QhaRunModel.Ok ((e0 q, k0 q, k1 q, v0 q), (c1, c2, c3, c4)) /\ through form tag n V Y q /\
    forall z, In z [c1; c2; c3; c4] -> z <> Nan /\ forall t, z = Fin t -> (0 <= t)%R.
Lemma root_shown z : z <> Nan -> (forall t, z = Fin t -> (0 <= t)%R) -> GuessModel.sqrt_shown z <> Nan /\ forall t, GuessModel.sqrt_shown z = Fin t -> (0 <= t)%R.
Proof.
  intros N H. destruct z as [t| |]; [|split; discriminate|contradiction]. specialize (H t eq_refl). unfold GuessModel.sqrt_shown, StatMechModel.Rle_b. destruct (Rle_dec 0 t); [|contradiction].
  split; [discriminate|]. intros t' E. injection E as <-. apply sqrt_pos.
Qed.
(** Then the fit recovers the curves, whatever its starting values are. *)
Theorem C104_recovers np_polyfit roots curve_fit tag : converges curve_fit tag ->
  (forall form n V Y, determinate form tag n V Y -> exists start, GuessModel.ev_guess np_polyfit roots n V Y = QhaRunModel.Ok start) ->
  recovers (GuessModel.ev_fit np_polyfit roots curve_fit) tag.
Proof.
  intros CV GU form n V Y p TF PH DF D EN H. assert (TP : through form tag n V Y p) by (split; [exact PH|]; split; [exact DF|exact H]).
  assert (DD : determinate form tag n V Y) by (repeat (split; [assumption|]); eauto).
  destruct (GU form n V Y DD) as (start & G). destruct (CV form n V Y start DD) as (q & c1 & c2 & c3 & c4 & C & TQ & N). rewrite <- (only_one form tag n V Y p q DD TP TQ) in C.
  unfold GuessModel.ev_fit. rewrite G. cbn [QhaRunModel.bind]. rewrite TF, C. cbn [QhaRunModel.bind]. eexists _, _, _, _. split; [reflexivity|].
  intros e [<-|[<-|[<-|[<-|[]]]]]; apply root_shown; apply N; cbn; tauto.
Qed.
Example C104_recovers_instance tag : In tag ["murnaghan"; "birchmurnaghan"; "vinet"; "pouriertarantola"] ->
  recovers (GuessModel.ev_fit PolyfitProofs.gram_schmidt_fit (fun _ => [(11, 0)]%R) (fun _ n V Y _ => recovering_fit tag n V Y)) tag /\
  exists p, determinate EvEosModel.ev_murnaghan "murnaghan" 4 (fun k => nth k four 0%R) (fun k => nth k murn 0%R) /\ through EvEosModel.ev_murnaghan "murnaghan" 4 (fun k => nth k four 0%R) (fun k => nth k murn 0%R) p.
Proof.
  intros _. split.
  - apply C104_recovers.
    + intros form n V Y start DD. pose proof DD as (TF & D & EN & p & PH & DF & H). destruct (fit_recovers tag form n V Y p TF PH DF D EN H) as (e1 & e2 & e3 & e4 & E & N).
      exists p, e1, e2, e3, e4. split; [exact E|]. split; [split; [exact PH|split; [exact DF|exact H]]|exact N].
    + intros form n V Y (_ & _ & EN & _). unfold GuessModel.ev_guess, GuessModel.polyfit. destruct (Nat.eqb_spec n 0) as [->|]; [exfalso; revert EN; unfold EvIdentProps.enough; destruct (String.eqb _ _); lia|].
      cbn. eauto.
  - exists (solid 0). assert (TT : through EvEosModel.ev_murnaghan "murnaghan" 4 (fun k => nth k four 0%R) (fun k => nth k murn 0%R) (solid 0)).
    { split; [split; cbn; lra|]. split; [split; intros _; cbn; lra|]. intros k Hl. split; [|now apply murn_nth]. destruct k as [|[|[|[|k]]]]; try lia; cbn; lra. }
    split; [|exact TT]. split; [reflexivity|]. split; [exact four_distinct|]. split; [cbn; lia|]. eauto.
Qed.

Print Assumptions C104_least_squares_zero.
Print Assumptions C104_least_squares.
Print Assumptions C104_zero_pressure.
Print Assumptions C104_command.
Print Assumptions C104_recovers.
