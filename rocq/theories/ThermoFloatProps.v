(** C92: enthalpy, Gibbs energy, adiabatic bulk modulus and Grueneisen parameter
    in double precision. *)
From Coq Require Import Reals List ZArith Bool Lra Lia Arith.
From Flocq Require Import Core.
From Verif Require Import ParModel ParProofs StatMechModel GridFloatModel GridFloatProofs HoFloatModel HoFloatSpec HoFloatProofs UnitsFloatModel UnitsFloatSpec UnitsFloatProofs ThermoFloatModel.
Import ListNotations.
Open Scope R_scope.

(** ** Vocabulary *)
(** A value a double can hold. *)
Definition machine (r : fp) : Prop := match r with Fin x => double x /\ Rabs x < b2 1024 | _ => True end.
(** Zero, or between 2^-n and 2^n in absolute value. *)
Definition within (n : Z) (x : R) : Prop := x = 0 \/ b2 (- n) <= Rabs x <= b2 n.
(** The textbook values: molar energy (kJ) of a pressure (Pa) on a volume (m^3 per
    cell), KS = KT (1 + alpha^2 KT V T / Cv), gamma = alpha KT V / Cv, with the heat
    capacity per mole, [f] pascals in the unit of KT. *)
Definition work (NA p v : R) : R := NA * (p * v) / 1000.
Definition KS_exact (NA f t v kt a c : R) : R := kt * (1 + a ^ 2 * (f * kt) * v * t / (c / NA)).
Definition gamma_exact (NA v kt a c : R) : R := a * kt * v / (c / NA).

(** ** The arrays *)
Lemma store_row_f_row m val i o : In o (store_row_f m val i) -> row fp o = i.
Proof. unfold store_row_f. intros I. apply in_map_iff in I as (j & <- & _). reflexivity. Qed.
Lemma exec_sets_f m (val : fmat) i : forall (M : memory fp) c s,
  exec fadd (map (fun j => SetTo i j (val i j)) (seq s m)) M i c = if ((s <=? c) && (c <? s + m))%nat then val i c else M i c.
Proof.
  induction m as [|m IH]; intros M c s.
  - simpl. destruct (Nat.leb_spec s c), (Nat.ltb_spec c (s + 0)); simpl; try reflexivity; lia.
  - cbn [seq map exec]. rewrite IH. unfold write. rewrite Nat.eqb_refl.
    destruct (Nat.leb_spec s c), (Nat.ltb_spec c (s + S m)), (Nat.leb_spec (S s) c), (Nat.ltb_spec c (S s + m)); cbn [andb]; try reflexivity; try lia;
    destruct (Nat.eqb_spec c s); subst; try reflexivity; lia.
Qed.
Lemma kernel_f_in n m val i j : (i < n)%nat -> (j < m)%nat -> kernel_f n m val i j = val i j.
Proof.
  intros Hi Hj. unfold kernel_f. rewrite exec_seq_row by (auto; intros; eapply store_row_f_row; eauto). unfold store_row_f. rewrite exec_sets_f.
  destruct (Nat.leb_spec 0 j), (Nat.ltb_spec j (0 + m)); simpl; try reflexivity; lia.
Qed.
(** However the threads are interleaved, bit for bit. *)
Theorem C92_schedule n m val M : run fadd n (fzeros, start (store_row_f m val)) M -> forall i j, M i j = kernel_f n m val i j.
Proof. intros H. apply schedule_independent; [|exact H]. intros; eapply store_row_f_row; eauto. Qed.

(** ** Lemmas on doubles *)
Lemma fit_machine x : double x -> Rabs x < b2 1024 -> fit x = Fin x.
Proof. intros _ H. unfold fit, Rlt_b. destruct (Rlt_dec (Rabs x) (bpow radix2 1024)); [reflexivity|contradiction]. Qed.
Lemma result_machine x : double x -> Rabs x < b2 1024 -> result x = Fin x.
Proof. intros D H. unfold result. rewrite rnd_double by exact D. now apply fit_machine. Qed.
Lemma result_zero : result 0 = Fin 0.
Proof. unfold result. rewrite rnd_0. unfold fit, Rlt_b. rewrite Rabs_R0. destruct (Rlt_dec 0 (bpow radix2 1024)) as [|N]; [reflexivity|]. destruct N. apply b2_pos. Qed.
Lemma result_not_nan x : result x <> Nan.
Proof. unfold result, fit. destruct (Rlt_b _ _); discriminate. Qed.
Definition nonneg (r : fp) : Prop := r = Nan \/ fle (Fin 0) r.
Definition nonpos (r : fp) : Prop := r = Nan \/ fle r (Fin 0).
Lemma result_nonneg x : 0 <= x -> nonneg (result x).
Proof. intros H. right. rewrite <- result_zero. now apply result_le. Qed.
Lemma result_nonpos x : x <= 0 -> nonpos (result x).
Proof. intros H. right. rewrite <- result_zero. now apply result_le. Qed.
Ltac signs := match goal with
  | |- nonneg Nan => now left | |- nonpos Nan => now left
  | |- nonneg (Inf false) => right; exact I | |- nonpos (Inf true) => right; exact I
  | |- nonneg (if ?b then _ else _) => destruct b eqn:?; signs
  | |- nonpos (if ?b then _ else _) => destruct b eqn:?; signs
  | _ => idtac end.
Lemma Rlt_b_false x : 0 <= x -> Rlt_b x 0 = false.
Proof. intros H. unfold Rlt_b. destruct (Rlt_dec x 0); [lra|reflexivity]. Qed.
Lemma Rlt_b_nonpos x : x <= 0 -> Req_b x 0 = false -> Rlt_b x 0 = true.
Proof. intros H. unfold Rlt_b, Req_b. destruct (Req_EM_T x 0); [discriminate|]. intros _. destruct (Rlt_dec x 0); [reflexivity|lra]. Qed.
Lemma mul_nonneg a b : nonneg a -> nonneg b -> nonneg (fmul a b).
Proof.
  intros [->|A] [->|B]; [now left|now left|destruct a as [|[|]|]; now left|].
  destruct a as [x|[|]|]; destruct b as [y|[|]|]; cbn [fle] in A, B; try contradiction; cbn [fmul]; try (now left); try (right; exact I).
  - apply result_nonneg. now apply Rmult_le_pos.
  - rewrite Rlt_b_false by exact A. cbn [xorb]. signs.
  - rewrite Rlt_b_false by exact B. cbn [xorb]. signs.
Qed.
Lemma mul_nonpos a b : nonneg a -> nonpos b -> nonpos (fmul a b).
Proof.
  intros [->|A] [->|B]; [now left|now left|destruct a as [|[|]|]; now left|].
  destruct a as [x|[|]|]; destruct b as [y|[|]|]; cbn [fle] in A, B; try contradiction; cbn [fmul]; try (now left); try (right; exact I).
  - apply result_nonpos. rewrite <- (Rmult_0_r x). now apply Rmult_le_compat_l.
  - rewrite Rlt_b_false by exact A. cbn [xorb]. signs.
  - destruct (Req_b y 0) eqn:E; [now left|]. rewrite (Rlt_b_nonpos y B E). cbn [xorb]. signs.
Qed.
Lemma mul_nonpos_r a b : nonpos a -> nonneg b -> nonpos (fmul a b).
Proof.
  intros [->|A] [->|B]; [now left|now left|destruct a as [|[|]|]; now left|].
  destruct a as [x|[|]|]; destruct b as [y|[|]|]; cbn [fle] in A, B; try contradiction; cbn [fmul]; try (now left); try (right; exact I).
  - apply result_nonpos. rewrite <- (Rmult_0_l y). now apply Rmult_le_compat_r.
  - destruct (Req_b x 0) eqn:E; [now left|]. rewrite (Rlt_b_nonpos x A E). cbn [xorb]. signs.
  - rewrite Rlt_b_false by exact B. cbn [xorb]. signs.
Qed.
Lemma mul_nonpos_both a b : nonpos a -> nonpos b -> nonneg (fmul a b).
Proof.
  intros [->|A] [->|B]; [now left|now left|destruct a as [|[|]|]; now left|].
  destruct a as [x|[|]|]; destruct b as [y|[|]|]; cbn [fle] in A, B; try contradiction; cbn [fmul]; try (now left); try (right; exact I).
  - apply result_nonneg. replace (x * y) with ((- x) * (- y)) by ring. apply Rmult_le_pos; lra.
  - destruct (Req_b x 0) eqn:E; [now left|]. rewrite (Rlt_b_nonpos x A E). cbn [xorb]. signs.
  - destruct (Req_b y 0) eqn:E; [now left|]. rewrite (Rlt_b_nonpos y B E). cbn [xorb]. signs.
Qed.
Lemma div_nonneg a b : nonneg a -> nonneg b -> nonneg (npdiv a b).
Proof.
  intros [->|A] [->|B].
  - now left.
  - unfold npdiv. destruct b as [y|[|]|]; cbn [fdiv]; [destruct (Req_b y 0)|..]; now left.
  - unfold npdiv. destruct a as [x|[|]|]; now left.
  - unfold npdiv. destruct a as [x|[|]|]; destruct b as [y|[|]|]; cbn [fle] in A, B; try contradiction; cbn [fdiv].
    + destruct (Req_b y 0) eqn:E.
      * destruct (Req_b x 0); [now left|]. rewrite Rlt_b_false by exact A. signs.
      * apply result_nonneg. apply Rmult_le_pos; [exact A|]. apply Rlt_le, Rinv_0_lt_compat. unfold Req_b in E. destruct (Req_EM_T y 0); [discriminate|lra].
    + right. cbn [fle]. lra.
    + destruct (Req_b y 0); [signs|]. rewrite Rlt_b_false by exact B. cbn [xorb]. signs.
    + now left.
Qed.
Lemma sign_cases a : nonneg a \/ nonpos a.
Proof. destruct a as [x|[|]|]; [destruct (Rle_dec 0 x)|..]; [left; now right|right; right; cbn; lra|right; now right|left; now right|left; now left]. Qed.
Lemma add_above a t : machine a -> nonneg t -> fadd a t = Nan \/ fle a (fadd a t).
Proof.
  intros M [->|P]; [left; destruct a as [|[|]|]; reflexivity|].
  destruct a as [x|[|]|]; destruct t as [y|[|]|]; cbn [fle] in P; try contradiction; cbn [fadd Bool.eqb]; try (now left); try (right; exact I).
  destruct M as [D L]. right. rewrite <- (result_machine x D L) at 1. apply result_le. lra.
Qed.
Lemma add_le_any a b t : fle a b -> fadd a t = Nan \/ fadd b t = Nan \/ fle (fadd a t) (fadd b t).
Proof.
  intros L. destruct t as [y|s|]; [right; right; now apply add_le|..]; destruct a as [x|[|]|]; destruct b as [z|[|]|]; cbn [fle] in L; try contradiction; cbn [fadd];
    try destruct s; cbn [Bool.eqb]; auto; right; right; exact I.
Qed.

Section Props.
Variable NA : R.
Variables n m i j : nat.
Hypothesis Hi : (i < n)%nat.
Hypothesis Hj : (j < m)%nat.

(** ** Enthalpy and Gibbs energy *)
(** At zero pressure nothing is lost: the energies are returned as they were. *)
Theorem C92_zero_pressure V p U F v : V i j = Fin v -> p j = Fin 0 -> machine (U i j) -> machine (F i j) ->
  enthalpy_f NA n m V p U i j = U i j /\ gibbs_f NA n m V p F i j = F i j.
Proof.
  intros EV Ep MU MF. unfold enthalpy_f, gibbs_f. rewrite !kernel_f_in by assumption. unfold enthalpy_entry_f, gibbs_entry_f, pV_f. rewrite EV, Ep.
  assert (Z : npdiv (fmul (fmul (Fin 0) (Fin v)) (Fin NA)) (Fin 1000) = Fin 0).
  { cbn [fmul]. rewrite Rmult_0_l, result_zero. cbn [fmul]. rewrite Rmult_0_l, result_zero. unfold npdiv. cbn [fdiv]. unfold Req_b. destruct (Req_EM_T 1000 0); [lra|].
    unfold Rdiv. rewrite Rmult_0_l. apply result_zero. }
  rewrite Z. assert (G : forall r, machine r -> fadd r (Fin 0) = r).
  { intros [x|s|] H; cbn [fadd]; [|destruct s; reflexivity|reflexivity]. rewrite Rplus_0_r. apply result_machine; apply H. }
  split; now apply G.
Qed.
(** Whatever the doubles: an internal energy not below the free energy (TS >= 0)
    gives an enthalpy not below the Gibbs energy; equal energies give equal ones. *)
Theorem C92_enthalpy_above_gibbs V p U F : 
  let H := enthalpy_f NA n m V p U i j in let G := gibbs_f NA n m V p F i j in
  (fle (F i j) (U i j) -> G = Nan \/ H = Nan \/ fle G H) /\ (F i j = U i j -> G = H).
Proof.
  cbv zeta. unfold enthalpy_f, gibbs_f. rewrite !kernel_f_in by assumption. unfold enthalpy_entry_f, gibbs_entry_f. split; [apply add_le_any|now intros ->].
Qed.
(** At an infinite pressure they are infinite with its sign, unless the energy is
    infinite with the other sign: then there is no value. *)
Theorem C92_infinite_pressure V p U F v s : 0 < NA -> V i j = Fin v -> 0 < v -> p j = Inf s ->
  let H := enthalpy_f NA n m V p U i j in let G := gibbs_f NA n m V p F i j in
  (forall x, U i j = Fin x -> H = Inf s) /\ (forall x, F i j = Fin x -> G = Inf s) /\
  (forall t, U i j = Inf t -> (t = s -> H = Inf s) /\ (t <> s -> H = Nan)) /\ (forall t, F i j = Inf t -> (t = s -> G = Inf s) /\ (t <> s -> G = Nan)).
Proof.
  intros PN EV Pv Ep. cbv zeta. unfold enthalpy_f, gibbs_f. rewrite !kernel_f_in by assumption. unfold enthalpy_entry_f, gibbs_entry_f.
  assert (W : pV_f NA (V i j) (p j) = Inf s).
  { unfold pV_f. rewrite EV, Ep. cbn [fmul]. unfold Req_b, Rlt_b. destruct (Req_EM_T v 0); [lra|]. destruct (Rlt_dec v 0); [lra|]. cbn [fmul]. unfold Req_b, Rlt_b. destruct (Req_EM_T NA 0); [lra|]. destruct (Rlt_dec NA 0); [lra|].
    unfold npdiv. cbn [fdiv]. unfold Req_b, Rlt_b. destruct (Req_EM_T 1000 0); [lra|]. destruct (Rlt_dec 1000 0); [lra|]. now rewrite !xorb_false_r. }
  rewrite W. assert (A : forall r t, r = Inf t -> (t = s -> fadd r (Inf s) = Inf s) /\ (t <> s -> fadd r (Inf s) = Nan)).
  { intros r t ->. cbn [fadd]. destruct t, s; split; intros X; congruence || reflexivity. }
  split; [intros x ->; reflexivity|]. split; [intros x ->; reflexivity|]. split; intros t E; exact (A _ t E).
Qed.
(** Compression never lowers them, not even in the last digit. *)
Theorem C92_pressure_order V p p' U F v a b : 0 < NA -> V i j = Fin v -> 0 < v -> U i j = Fin a -> F i j = Fin b -> fle (p j) (p' j) ->
  fle (enthalpy_f NA n m V p U i j) (enthalpy_f NA n m V p' U i j) /\ fle (gibbs_f NA n m V p F i j) (gibbs_f NA n m V p' F i j).
Proof.
  intros PN EV Pv EU EF L. unfold enthalpy_f, gibbs_f. rewrite !kernel_f_in by assumption. unfold enthalpy_entry_f, gibbs_entry_f. rewrite EV, EU, EF.
  assert (K : fle (pV_f NA (Fin v) (p j)) (pV_f NA (Fin v) (p' j))) by (unfold pV_f; apply div_le; [lra|]; apply mul_le; [exact PN|]; now apply mul_le).
  assert (C : forall x r, fadd (Fin x) r = fadd r (Fin x)) by (intros x [y|s|]; cbn [fadd]; [rewrite Rplus_comm|..]; reflexivity).
  rewrite !C. split; now apply add_le.
Qed.
Lemma within_tracks k x : within k x -> tracks (Fin x) x 0 k.
Proof. intros H. exists x. split; [reflexivity|]. split; [apply near_refl|exact H]. Qed.
Lemma NA_tracks : usual NA -> tracks (Fin NA) NA 0 80.
Proof. intros H. now apply tracks_const. Qed.
Lemma work_tracks p v : usual NA -> within 150 p -> within 150 v -> tracks (pV_f NA (Fin v) (Fin p)) (work NA p v) 13 390.
Proof.
  intros U A B. unfold pV_f. replace (work NA p v) with (p * v * NA / 1000) by (unfold work; field).
  eapply tracks_weaken; [eapply (tracks_div _ _ _ _ 8 0 380 10)|lra|lia]; try lra; try lia.
  - eapply tracks_weaken; [eapply (tracks_mul _ _ _ _ 4 0 300 80)|lra|lia]; try lra; try lia; [|now apply NA_tracks].
    eapply tracks_weaken; [eapply (tracks_mul _ _ _ _ 0 0 150 150)|lra|lia]; try lra; try lia; now apply within_tracks.
  - exact t_1000.
Qed.
Lemma sum_error r w e : tracks r e 13 390 -> double w -> Rabs w <= b2 999 ->
  exists h, fadd (Fin w) r = Fin h /\ Rabs (h - (w + e)) <= u * Rabs (w + e) + 15 * u * Rabs e.
Proof.
  intros (x & -> & N & Z) D L. unfold near in N.
  assert (XB : Rabs x <= 2 * Rabs e).
  { replace x with ((x - e) + e) by ring. eapply Rle_trans; [apply Rabs_triang|]. destruct (few_u 13 ltac:(lra)). pose proof (Rabs_pos e). nra. }
  assert (EB : Rabs e <= b2 390) by (destruct Z as [->|Z]; [rewrite Rabs_R0; left; apply b2_pos|apply Z]).
  exists (rnd (w + x)). split.
  - apply add_fin. eapply Rle_trans; [apply Rabs_triang|]. rewrite (b2_split 1 999 1000) by reflexivity. rewrite b2_1.
    assert (2 * b2 390 <= b2 999) by (rewrite <- b2_1; bp). lra.
  - destruct (Req_dec e 0) as [->|NZ].
    + rewrite Rabs_R0 in XB. assert (X0 : x = 0) by (destruct (Req_dec x 0) as [|K]; [assumption|pose proof (Rabs_pos_lt _ K); lra]). rewrite X0, !Rplus_0_r. rewrite (rnd_double w D).
      replace (w - w) with 0 by ring. rewrite !Rabs_R0. pose proof u_pos. pose proof (Rabs_pos w). nra.
    + destruct Z as [->|[Z _]]; [contradiction|]. pose proof (rnd_err (w + x)) as E.
      assert (S0 : b2 (-1075) <= u * Rabs e).
      { apply Rle_trans with (u * b2 (-390)); [unfold u; bp|]. apply Rmult_le_compat_l; [left; apply u_pos|exact Z]. }
      assert (A1 : Rabs (w + x) <= Rabs (w + e) + Rabs (x - e)) by (replace (w + x) with ((w + e) + (x - e)) by ring; apply Rabs_triang).
      assert (A2 : Rabs (rnd (w + x) - (w + e)) <= Rabs (rnd (w + x) - (w + x)) + Rabs (x - e))
        by (replace (rnd (w + x) - (w + e)) with ((rnd (w + x) - (w + x)) + (x - e)) by ring; apply Rabs_triang).
      pose proof u_pos as UP. pose proof u_small as US. pose proof (Rabs_pos e). pose proof (Rabs_pos (x - e)).
      assert (u * Rabs (w + x) <= u * Rabs (w + e) + u * Rabs (x - e)) by nra.
      assert (u * Rabs (x - e) <= / 1000000000000000 * (13 * u * Rabs e)) by (apply Rmult_le_compat; lra).
      pose proof (Rmult_le_pos u (Rabs e) ltac:(lra) ltac:(lra)). nra.
Qed.
(** The error: one rounding of the sum, and 15 units of roundoff of the pV term. *)
Theorem C92_accuracy V p U F q v w w' :
  usual NA -> V i j = Fin v -> within 150 v -> p j = Fin q -> within 150 q ->
  U i j = Fin w -> double w -> Rabs w <= b2 999 -> F i j = Fin w' -> double w' -> Rabs w' <= b2 999 ->
  (exists h, enthalpy_f NA n m V p U i j = Fin h /\ Rabs (h - (w + work NA q v)) <= u * Rabs (w + work NA q v) + 15 * u * Rabs (work NA q v)) /\
  (exists g, gibbs_f NA n m V p F i j = Fin g /\ Rabs (g - (w' + work NA q v)) <= u * Rabs (w' + work NA q v) + 15 * u * Rabs (work NA q v)).
Proof.
  intros UN EV Wv Ep Wq EU DU LU EF DF LF. unfold enthalpy_f, gibbs_f. rewrite !kernel_f_in by assumption. unfold enthalpy_entry_f, gibbs_entry_f. rewrite EV, Ep, EU, EF.
  split; apply sum_error; auto; now apply work_tracks.
Qed.

(** ** Adiabatic bulk modulus and Grueneisen parameter *)
Variables (T : nat -> fp) (V KT alpha Cv : fmat) (factor : fp).
Notation KS := (adiabatic_bulk_modulus_f NA n m T V KT alpha Cv factor i j).
Notation gamma := (gruneisen_parameter_f NA n m V KT alpha Cv i j).

(** At zero temperature or without heat capacity the isothermal modulus is returned,
    without heat capacity a zero parameter, whatever (even NaN) the other entries. *)
Theorem C92_fallback : (T i = Fin 0 \/ Cv i j = Fin 0 -> KS = KT i j) /\ (Cv i j = Fin 0 -> gamma = Fin 0).
Proof.
  unfold adiabatic_bulk_modulus_f, gruneisen_parameter_f. rewrite !kernel_f_in by assumption. unfold KS_entry_f, gamma_entry_f.
  assert (Z : is_zero (Fin 0) = true) by (unfold is_zero, Req_b; destruct (Req_EM_T 0 0); [reflexivity|contradiction]).
  split; [intros [-> | ->]; rewrite Z, ?orb_true_r; reflexivity|intros ->; now rewrite Z].
Qed.
(** KS is never below KT: rounding, overflow and underflow can spoil the value (NaN)
    but not the order. *)
Theorem C92_KS_above : 0 < NA -> machine (KT i j) -> fle (Fin 0) (T i) -> fle (Fin 0) (V i j) -> fle (Fin 0) (Cv i j) -> fle (Fin 0) factor ->
  KS = Nan \/ KT i j = Nan \/ fle (KT i j) KS.
Proof.
  intros PN MK PT PV PC PF. unfold adiabatic_bulk_modulus_f. rewrite kernel_f_in by assumption. unfold KS_entry_f.
  destruct (_ || _)%bool.
  { right. destruct (KT i j) as [x|[|]|]; [right; cbn; lra|right; exact I|right; exact I|now left]. }
  assert (P : nonneg (KS_term_f NA (T i) (V i j) (KT i j) (alpha i j) (Cv i j) factor)).
  { unfold KS_term_f. apply div_nonneg; [|now right]. apply div_nonneg; [|apply div_nonneg; [now right|right; cbn; lra]].
    apply mul_nonneg; [|now right]. apply mul_nonneg; [|now right]. apply mul_nonneg.
    - destruct (sign_cases (alpha i j)); [now apply mul_nonneg|now apply mul_nonpos_both].
    - destruct (sign_cases (KT i j)) as [S|S].
      + apply mul_nonneg; [|exact S]. apply mul_nonneg; [|now right]. apply mul_nonneg; [now right|exact S].
      + apply mul_nonpos_both; [|exact S]. apply mul_nonpos_r; [|now right]. apply mul_nonpos; [now right|exact S]. }
  destruct (add_above (KT i j) _ MK P) as [X|X]; [now left|now right; right].
Qed.

Variables f t v kt a c : R.
Hypothesis UN : usual NA.
Hypothesis ET : T i = Fin t.
Hypothesis EV : V i j = Fin v.
Hypothesis EK : KT i j = Fin kt.
Hypothesis EA : alpha i j = Fin a.
Hypothesis EC : Cv i j = Fin c.
Hypothesis EF : factor = Fin f.
Hypothesis St : within 40 t.
Hypothesis Sv : within 120 v.
Hypothesis Sk : within 80 kt.
Hypothesis Sa : within 60 a.
Hypothesis Sc : within 60 c.
Hypothesis Pc : c <> 0.
Lemma heat_tracks : tracks (npdiv (Fin c) (Fin NA)) (c / NA) 5 140.
Proof.
  eapply tracks_weaken; [eapply (tracks_div _ _ _ _ 0 0 60 80)|lra|lia]; try lra; try lia; [now apply within_tracks|now apply NA_tracks|].
  pose proof (usual_pos _ UN). lra.
Qed.
Lemma heat_nz : c / NA <> 0.
Proof. pose proof (usual_pos _ UN). apply Rmult_integral_contrapositive_currified; [exact Pc|apply Rinv_neq_0_compat; lra]. Qed.
Lemma Cv_not_zero : is_zero (Cv i j) = false.
Proof. rewrite EC. unfold is_zero, Req_b. destruct (Req_EM_T c 0); [contradiction|reflexivity]. Qed.
Lemma gamma_tracks : tracks gamma (gamma_exact NA v kt a c) 18 400.
Proof.
  unfold gruneisen_parameter_f. rewrite kernel_f_in by assumption. unfold gamma_entry_f. rewrite Cv_not_zero, EV, EK, EA, EC.
  replace (gamma_exact NA v kt a c) with (v * kt * a / (c / NA)) by (unfold gamma_exact; f_equal; ring).
  eapply tracks_weaken; [eapply (tracks_div _ _ _ _ 8 5 260 140)|lra|lia]; try lra; try lia; [|exact heat_tracks|exact heat_nz].
  eapply tracks_weaken; [eapply (tracks_mul _ _ _ _ 4 0 200 60)|lra|lia]; try lra; try lia; [|now apply within_tracks].
  eapply tracks_weaken; [eapply (tracks_mul _ _ _ _ 0 0 120 80)|lra|lia]; try lra; try lia; now apply within_tracks.
Qed.
Theorem C92_gamma_accuracy : exists g, gamma = Fin g /\ near g (gamma_exact NA v kt a c) 18.
Proof. destruct gamma_tracks as (x & E & N & _). now exists x. Qed.
(** Its sign is that of the expansion. *)
Theorem C92_gamma_sign : 0 < v -> 0 < kt -> 0 < c -> exists g, gamma = Fin g /\ (0 < a -> 0 < g) /\ (a = 0 -> g = 0) /\ (a < 0 -> g < 0).
Proof.
  intros P1 P2 P3. destruct C92_gamma_accuracy as (g & E & N). exists g. split; [exact E|].
  pose proof (usual_pos _ UN) as PN. assert (Q : 0 < kt * v / (c / NA)) by (apply Rdiv_lt_0_compat; [now apply Rmult_lt_0_compat|now apply Rdiv_lt_0_compat]).
  assert (X : gamma_exact NA v kt a c = a * (kt * v / (c / NA))) by (unfold gamma_exact, Rdiv; ring). rewrite X in N. set (q := kt * v / (c / NA)) in *.
  destruct (few_u 18 ltac:(lra)) as [_ FU]. unfold near in N. split; [|split].
  - intros H. assert (0 < a * q) by (now apply Rmult_lt_0_compat). rewrite (Rabs_pos_eq (a * q)) in N by lra. apply Rabs_le_inv in N. nra.
  - intros ->. rewrite Rmult_0_l in N. now apply near_zero with 18.
  - intros H. assert (0 < - a * q) by (apply Rmult_lt_0_compat; lra). rewrite (Rabs_left (a * q)) in N by nra. apply Rabs_le_inv in N. nra.
Qed.

Hypothesis Sf : within 20 f.
Hypothesis Pf : 0 < f.
Hypothesis Pt : t <> 0.
Lemma term_tracks : tracks (KS_term_f NA (Fin t) (Fin v) (Fin kt) (Fin a) (Fin c) (Fin f)) (kt * (a ^ 2 * (f * kt) * v * t / (c / NA))) 43 700.
Proof.
  unfold KS_term_f. replace (kt * (a ^ 2 * (f * kt) * v * t / (c / NA))) with (a * a * (f * kt * f * kt) * v * t / (c / NA) / f)
    by (pose proof (usual_pos _ UN); field; repeat split; lra).
  eapply tracks_weaken; [eapply (tracks_div _ _ _ _ 38 0 620 20)|lra|lia]; try lra; try lia; [|now apply within_tracks].
  eapply tracks_weaken; [eapply (tracks_div _ _ _ _ 28 5 480 140)|lra|lia]; try lra; try lia; [|exact heat_tracks|exact heat_nz].
  eapply tracks_weaken; [eapply (tracks_mul _ _ _ _ 24 0 440 40)|lra|lia]; try lra; try lia; [|now apply within_tracks].
  eapply tracks_weaken; [eapply (tracks_mul _ _ _ _ 20 0 320 120)|lra|lia]; try lra; try lia; [|now apply within_tracks].
  eapply tracks_weaken; [eapply (tracks_mul _ _ _ _ 4 12 120 200)|lra|lia]; try lra; try lia.
  - eapply tracks_weaken; [eapply (tracks_mul _ _ _ _ 0 0 60 60)|lra|lia]; try lra; try lia; now apply within_tracks.
  - eapply tracks_weaken; [eapply (tracks_mul _ _ _ _ 8 0 120 80)|lra|lia]; try lra; try lia; [|now apply within_tracks].
    eapply tracks_weaken; [eapply (tracks_mul _ _ _ _ 4 0 100 20)|lra|lia]; try lra; try lia; [|now apply within_tracks].
    eapply tracks_weaken; [eapply (tracks_mul _ _ _ _ 0 0 20 80)|lra|lia]; try lra; try lia; now apply within_tracks.
Qed.
Lemma KS_value : KS = fadd (Fin kt) (KS_term_f NA (Fin t) (Fin v) (Fin kt) (Fin a) (Fin c) (Fin f)).
Proof.
  unfold adiabatic_bulk_modulus_f. rewrite kernel_f_in by assumption. unfold KS_entry_f. rewrite Cv_not_zero, ET, EV, EK, EA, EC, EF.
  unfold is_zero, Req_b. destruct (Req_EM_T t 0); [contradiction|]. reflexivity.
Qed.
(** Without expansion nothing is added. *)
Theorem C92_no_expansion : machine (KT i j) -> a = 0 -> KS = KT i j /\ gamma = Fin 0.
Proof.
  rewrite EK. intros M A0. split.
  - rewrite KS_value. destruct term_tracks as (x & -> & N & _). rewrite A0 in N. replace (kt * (0 ^ 2 * (f * kt) * v * t / (c / NA))) with 0 in N by (unfold Rdiv; ring).
    rewrite (near_zero _ _ N). cbn [fadd]. rewrite Rplus_0_r. apply result_machine; apply M.
  - destruct gamma_tracks as (x & -> & N & _). rewrite A0 in N. replace (gamma_exact NA v kt 0 c) with 0 in N by (unfold gamma_exact, Rdiv; ring). now rewrite (near_zero _ _ N).
Qed.

Hypothesis Pk : 0 < kt.
Hypothesis Pv : 0 <= v.
Hypothesis Pt' : 0 <= t.
Hypothesis Pc' : 0 <= c.
Lemma term_nonneg : 0 <= a ^ 2 * (f * kt) * v * t / (c / NA).
Proof.
  pose proof (usual_pos _ UN). apply Rmult_le_pos; [|apply Rlt_le, Rinv_0_lt_compat, Rdiv_lt_0_compat; lra].
  apply Rmult_le_pos; [|exact Pt']. apply Rmult_le_pos; [|exact Pv]. apply Rmult_le_pos; [apply pow2_ge_0|]. apply Rmult_le_pos; lra.
Qed.
Theorem C92_KS_accuracy : exists k, KS = Fin k /\ near k (KS_exact NA f t v kt a c) 46.
Proof.
  rewrite KS_value. destruct term_tracks as (x & -> & N & Z). pose proof term_nonneg as TN. unfold KS_exact. rewrite Rmult_plus_distr_l, Rmult_1_r.
  set (e := a ^ 2 * (f * kt) * v * t / (c / NA)) in *. assert (E0 : 0 <= kt * e) by (apply Rmult_le_pos; lra).
  cbn [fadd]. unfold near in N. rewrite (Rabs_pos_eq (kt * e)) in N by exact E0.
  assert (K2 : b2 (-80) <= kt <= b2 80) by (destruct Sk as [Q|Q]; [lra|rewrite Rabs_pos_eq in Q by lra; exact Q]).
  assert (S : near (kt + x) (kt + kt * e) 43).
  { unfold near. replace (kt + x - (kt + kt * e)) with (x - kt * e) by ring. rewrite (Rabs_pos_eq (kt + kt * e)) by lra. pose proof u_pos. nra. }
  assert (UB : kt * e <= b2 700) by (destruct Z as [Q|Q]; [rewrite Q; left; apply b2_pos|rewrite Rabs_pos_eq in Q by exact E0; apply Q]).
  destruct (rounded_tracks (kt + x) (kt + kt * e) 43 701 S ltac:(lra)) as (y & EY & NY & _); [|lia|exists y; split; [exact EY|eapply near_weaken; [exact NY|lra]]].
  right. rewrite Rabs_pos_eq by lra. split; [apply Rle_trans with (b2 (-80)); [bp|lra]|].
  rewrite (b2_split 1 700 701), b2_1 by reflexivity. assert (b2 80 <= b2 700) by bp. lra.
Qed.
(** The two functions fit together: KS = KT (1 + alpha gamma T) with the parameter
    computed, when both get the modulus in pascal. *)
Theorem C92_relation : f = 1 -> exists k g, KS = Fin k /\ gamma = Fin g /\ near k (kt * (1 + a * g * t)) 70.
Proof.
  intros F1. destruct C92_KS_accuracy as (k & EK' & NK'). destruct C92_gamma_accuracy as (g & EG & NG). exists k, g. split; [exact EK'|]. split; [exact EG|].
  pose proof term_nonneg as TN. rewrite F1, Rmult_1_l in TN. unfold KS_exact in NK'. rewrite F1, Rmult_1_l in NK'.
  set (e := a ^ 2 * kt * v * t / (c / NA)) in *.
  assert (X : Rabs (a * g * t - e) <= 18 * u * e).
  { replace e with (a * gamma_exact NA v kt a c * t) at 1 by (unfold e, gamma_exact, Rdiv; ring). replace (a * g * t - a * gamma_exact NA v kt a c * t) with (a * t * (g - gamma_exact NA v kt a c)) by ring.
    rewrite Rabs_mult. unfold near in NG. apply Rle_trans with (Rabs (a * t) * (18 * u * Rabs (gamma_exact NA v kt a c))); [apply Rmult_le_compat_l; [apply Rabs_pos|exact NG]|].
    replace (Rabs (a * t) * (18 * u * Rabs (gamma_exact NA v kt a c))) with (18 * u * (Rabs (a * t) * Rabs (gamma_exact NA v kt a c))) by ring. rewrite <- Rabs_mult.
    replace (a * t * gamma_exact NA v kt a c) with e by (unfold e, gamma_exact, Rdiv; ring). rewrite Rabs_pos_eq by exact TN. lra. }
  assert (Y : near (kt * (1 + e)) (kt * (1 + a * g * t)) 20).
  { destruct (few_u 18 ltac:(lra)) as [U0 U1]. pose proof u_pos as UP. apply Rabs_le_inv in X. set (h := a * g * t) in *. assert (H0 : 0 <= h) by nra.
    unfold near. replace (kt * (1 + e) - kt * (1 + h)) with (kt * (e - h)) by ring. rewrite Rabs_mult, (Rabs_pos_eq kt) by lra. rewrite (Rabs_pos_eq (kt * (1 + h))) by (apply Rmult_le_pos; lra).
    assert (EH : e <= (1 + / 10) * h) by nra. apply Rle_trans with (kt * (18 * u * e)); [apply Rmult_le_compat_l; [lra|apply Rabs_le; lra]|].
    assert (18 * u * e <= 20 * u * h) by nra. nra. }
  eapply near_weaken; [eapply near_trans; [exact NK'|exact Y|lra|lra]|lra].
Qed.
End Props.

(** ** A heat capacity that is not zero but whose quotient by Avogadro's number is:
    0/0, although the exact parameter is zero and the exact modulus KT. *)
Lemma tiny_quotient NA c : b2 70 <= NA -> 0 <= c <= b2 (-1022) -> npdiv (Fin c) (Fin NA) = Fin 0.
Proof.
  intros HN Hc. pose proof (b2_pos 70). unfold npdiv. cbn [fdiv]. unfold Req_b. destruct (Req_EM_T NA 0); [lra|].
  assert (Q : 0 <= c / NA <= b2 (-1092)).
  { split; [apply Rmult_le_pos; [lra|apply Rlt_le, Rinv_0_lt_compat; lra]|]. apply Rle_trans with (b2 (-1022) * / b2 70).
    - apply Rmult_le_compat; try lra; [apply Rlt_le, Rinv_0_lt_compat; lra|apply Rinv_le; lra].
    - rewrite b2_inv. bp. }
  assert (Z : rnd (c / NA) = 0).
  { destruct (Req_dec (c / NA) 0) as [-> | NZ]; [apply rnd_0|]. unfold rnd. apply (round_N_small_pos radix2 (FLT_exp (-1074) 53) (fun z => negb (Z.even z)) (c / NA) (mag radix2 (c / NA))).
    - destruct (mag radix2 (c / NA)) as (ex & Hex). cbn. specialize (Hex NZ). rewrite Rabs_pos_eq in Hex by lra. exact Hex.
    - assert (mag radix2 (c / NA) <= -1091)%Z.
      { apply mag_le_bpow; [exact NZ|]. rewrite Rabs_pos_eq by lra. apply Rle_lt_trans with (b2 (-1092)); [lra|apply bpow_lt; lia]. }
      unfold FLT_exp. lia. }
  unfold result. rewrite Z. unfold fit, Rlt_b. rewrite Rabs_R0. destruct (Rlt_dec 0 (bpow radix2 1024)) as [|N0]; [reflexivity|destruct N0; apply b2_pos].
Qed.
Definition zero_or_nan (r : fp) : Prop := r = Fin 0 \/ r = Nan.
Lemma mul_zero_l a b : zero_or_nan a -> zero_or_nan (fmul a b).
Proof.
  intros [-> | ->]; [|now right]. destruct b as [y|s|]; cbn [fmul]; [rewrite Rmult_0_l, result_zero; now left| |now right].
  unfold Req_b. destruct (Req_EM_T 0 0); [now right|contradiction].
Qed.
Lemma mul_zero_r a b : zero_or_nan b -> zero_or_nan (fmul a b).
Proof.
  intros [-> | ->]; [|destruct a as [x|s|]; now right]. destruct a as [x|s|]; cbn [fmul]; [rewrite Rmult_0_r, result_zero; now left| |now right].
  unfold Req_b. destruct (Req_EM_T 0 0); [now right|contradiction].
Qed.
Lemma zero_over_zero a : zero_or_nan a -> npdiv a (Fin 0) = Nan.
Proof. unfold npdiv. intros [-> | ->]; cbn [fdiv]; unfold Req_b; destruct (Req_EM_T 0 0); try reflexivity; contradiction. Qed.
Theorem C92_tiny_heat_refuted NA n m i j T V KT alpha Cv t c f : (i < n)%nat -> (j < m)%nat -> b2 70 <= NA -> 0 < c <= b2 (-1022) ->
  T i = Fin t -> t <> 0 -> alpha i j = Fin 0 -> Cv i j = Fin c ->
  gruneisen_parameter_f NA n m V KT alpha Cv i j = Nan /\ adiabatic_bulk_modulus_f NA n m T V KT alpha Cv f i j = Nan.
Proof.
  intros Hi Hj HN Hc ET Pt EA EC. unfold gruneisen_parameter_f, adiabatic_bulk_modulus_f. rewrite !kernel_f_in by assumption. unfold gamma_entry_f, KS_entry_f, KS_term_f.
  assert (Z1 : is_zero (Cv i j) = false) by (rewrite EC; unfold is_zero, Req_b; destruct (Req_EM_T c 0); [lra|reflexivity]).
  assert (Z2 : is_zero (T i) = false) by (rewrite ET; unfold is_zero, Req_b; destruct (Req_EM_T t 0); [contradiction|reflexivity]).
  rewrite Z1, Z2, EA, EC. cbn [orb]. rewrite tiny_quotient by (auto; lra). split.
  - apply zero_over_zero, mul_zero_r. now left.
  - rewrite (zero_over_zero (fmul (fmul (fmul (fmul (Fin 0) (Fin 0)) _) _) _)); [|do 4 apply mul_zero_l; now left].
    replace (npdiv Nan f) with Nan by (unfold npdiv; destruct f as [y|s|]; cbn [fdiv]; [destruct (Req_b y 0)|..]; reflexivity). destruct (KT i j) as [y|s|]; reflexivity.
Qed.

(** ** Concrete cases *)
(** Periclase near room temperature: 75 A^3, 160 GPa, 3e-5 / K, 37 J/(mol K). *)
Lemma within_pos n x : (0 <= n)%Z -> / 2 ^ Z.to_nat n <= x <= 2 ^ Z.to_nat n -> within n x.
Proof.
  intros N H. right. assert (P : 0 < 2 ^ Z.to_nat n) by (apply pow_lt; lra). assert (0 < / 2 ^ Z.to_nat n) by now apply Rinv_0_lt_compat. rewrite Rabs_pos_eq by lra.
  rewrite <- b2_inv. rewrite <- (b2_nat (Z.to_nat n)) in H. rewrite Z2Nat.id in H by exact N. exact H.
Qed.
Ltac sizes := apply within_pos; [lia|]; match goal with |- context [Z.to_nat ?n] => let v := eval vm_compute in (Z.to_nat n) in change (Z.to_nat n) with v end; cbn [pow]; lra.
Definition avogadro : R := 602214076000000000000000.
Lemma avogadro_usual : usual avogadro.
Proof.
  unfold usual, avogadro. split; [apply Rle_trans with (b2 0); [bp|rewrite b2_0; lra]|]. pose proof (b2_nat 80) as E. change (Z.of_nat 80) with 80%Z in E. rewrite E. cbn [pow]. lra.
Qed.
Definition only (x : R) : fmat := fun _ _ => Fin x.
Example C92_instance : exists k g,
  adiabatic_bulk_modulus_f avogadro 1%nat 1%nat (fun _ => Fin 300) (only (75 / 10 ^ 30)) (only (16 * 10 ^ 10)) (only (3 / 10 ^ 5)) (only 37) (Fin 1) 0%nat 0%nat = Fin k /\
  gruneisen_parameter_f avogadro 1%nat 1%nat (only (75 / 10 ^ 30)) (only (16 * 10 ^ 10)) (only (3 / 10 ^ 5)) (only 37) 0%nat 0%nat = Fin g /\
  near k (16 * 10 ^ 10 * (1 + 3 / 10 ^ 5 * g * 300)) 70 /\ 0 < g.
Proof.
  destruct (C92_relation avogadro 1%nat 1%nat 0%nat 0%nat ltac:(lia) ltac:(lia) (fun _ => Fin 300) (only (75 / 10 ^ 30)) (only (16 * 10 ^ 10)) (only (3 / 10 ^ 5)) (only 37) (Fin 1)
    1 300 (75 / 10 ^ 30) (16 * 10 ^ 10) (3 / 10 ^ 5) 37 avogadro_usual eq_refl eq_refl eq_refl eq_refl eq_refl eq_refl) as (k & g & A & B & C); try lra; try sizes.
  exists k, g. split; [exact A|]. split; [exact B|]. split; [exact C|].
  destruct (C92_gamma_sign avogadro 1%nat 1%nat 0%nat 0%nat ltac:(lia) ltac:(lia) (only (75 / 10 ^ 30)) (only (16 * 10 ^ 10)) (only (3 / 10 ^ 5)) (only 37)
    (75 / 10 ^ 30) (16 * 10 ^ 10) (3 / 10 ^ 5) 37 avogadro_usual eq_refl eq_refl eq_refl eq_refl) as (g' & B' & P & _); try lra; try sizes.
  rewrite B in B'. injection B' as <-. apply P. lra.
Qed.
(** A pressure of 10 GPa on it, and an internal energy of -1024 kJ/mol. *)
Example C92_accuracy_instance : exists h,
  enthalpy_f avogadro 1%nat 1%nat (only (75 / 10 ^ 30)) (fun _ => Fin (10 ^ 10)) (only (-1024)) 0%nat 0%nat = Fin h /\ Rabs (h - (-1024 + 451660557 / 10 ^ 6)) <= / 10 ^ 9.
Proof.
  assert (X : b2 10 = 1024) by (pose proof (b2_nat 10) as E; change (Z.of_nat 10) with 10%Z in E; rewrite E; cbn [pow]; lra).
  assert (D : double (-1024)).
  { assert (Q : -1024 = -1 * b2 10) by (rewrite X; lra). rewrite Q. apply (double_scaled (-1) 10); lia. }
  assert (L : Rabs (-1024) <= b2 999).
  { rewrite Rabs_left by lra. apply Rle_trans with (b2 10); [lra|bp]. }
  destruct (C92_accuracy avogadro 1%nat 1%nat 0%nat 0%nat ltac:(lia) ltac:(lia) (only (75 / 10 ^ 30)) (fun _ => Fin (10 ^ 10)) (only (-1024)) (only (-1024)) (10 ^ 10) (75 / 10 ^ 30) (-1024) (-1024)
    avogadro_usual eq_refl ltac:(sizes) eq_refl ltac:(sizes) eq_refl D L eq_refl D L) as ((h & E & B) & _).
  exists h. split; [exact E|]. assert (W : work avogadro (10 ^ 10) (75 / 10 ^ 30) = 451660557 / 10 ^ 6) by (unfold work, avogadro; lra). rewrite W in B.
  rewrite (Rabs_left (-1024 + _)), (Rabs_pos_eq (451660557 / 10 ^ 6)) in B by lra. pose proof u_small. pose proof u_pos.
  assert (u * - (-1024 + 451660557 / 10 ^ 6) <= / 1000000000000000 * 573) by (apply Rmult_le_compat; lra).
  assert (15 * u * (451660557 / 10 ^ 6) <= 15 * / 1000000000000000 * 452) by (apply Rmult_le_compat; lra). lra.
Qed.
Example C92_infinite_instance : exists V p U F : nat -> nat -> fp, V 0%nat 0%nat = Fin 40 /\ p 0%nat 0%nat = Inf true /\ U 0%nat 0%nat = Inf false /\ F 0%nat 0%nat = Fin 1 /\
  enthalpy_f avogadro 1 1 V (p 0%nat) U 0%nat 0%nat = Nan /\ gibbs_f avogadro 1 1 V (p 0%nat) F 0%nat 0%nat = Inf true.
Proof.
  exists (fun _ _ => Fin 40), (fun _ _ => Inf true), (fun _ _ => Inf false), (fun _ _ => Fin 1). do 4 (split; [reflexivity|]).
  assert (PA : 0 < avogadro) by (unfold avogadro; lra).
  destruct (C92_infinite_pressure avogadro 1 1 0 0 ltac:(lia) ltac:(lia) (fun _ _ => Fin 40) (fun _ => Inf true) (fun _ _ => Inf false) (fun _ _ => Fin 1) 40 true PA eq_refl ltac:(lra) eq_refl) as (_ & A & B & _).
  split; [exact (proj2 (B false eq_refl) ltac:(discriminate))|exact (A 1 eq_refl)].
Qed.
Example C92_tiny_heat_instance : b2 70 <= avogadro /\ 0 < b2 (-1030) <= b2 (-1022).
Proof.
  split; [unfold avogadro; pose proof (b2_nat 70) as E; change (Z.of_nat 70) with 70%Z in E; rewrite E; cbn [pow]; lra|split; [apply b2_pos|bp]].
Qed.

Print Assumptions C92_schedule.
Print Assumptions C92_zero_pressure.
Print Assumptions C92_enthalpy_above_gibbs.
Print Assumptions C92_infinite_pressure.
Print Assumptions C92_pressure_order.
Print Assumptions C92_accuracy.
Print Assumptions C92_fallback.
Print Assumptions C92_KS_above.
Print Assumptions C92_gamma_accuracy.
Print Assumptions C92_gamma_sign.
Print Assumptions C92_no_expansion.
Print Assumptions C92_KS_accuracy.
Print Assumptions C92_relation.
Print Assumptions C92_tiny_heat_refuted.
