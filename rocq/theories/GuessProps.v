(** Property C102 (starting values of the fits). *)
From Coq Require Import Reals String List Lra Lia Bool Arith Psatz.
From Coquelicot Require Import Coquelicot.
From Verif Require Import ParModel StatMechModel ThermoModel PolyModel PolyProps PolyfitProofs EvEosModel QhaRunModel ReportModel GuessModel.
From Verif Require PvEosModel PvEosSpec PvEosProps EosFitModel.
Import ListNotations.
Open Scope string_scope.
Open Scope list_scope.
Open Scope R_scope.

(** ** Specification *)
(** The value of a polynomial at a complex number. *)
Definition Cvalue (c : list R) (z : C) : C := fold_right (fun a s => Cplus (RtoC a) (Cmult z s)) (RtoC 0) c.
(** What np.roots promises: every complex root, and nothing for the zero polynomial. *)
Definition all_roots (roots : list R -> list (R * R)) (c : list R) : Prop :=
  (vanishes c -> roots c = []) /\ (~ vanishes c -> forall z : C, In z (roots c) <-> Cvalue c z = RtoC 0).
(** The polynomial of degree four which fits the energies. *)
Definition quartic_fit (n : nat) (V E : nat -> R) (g : list R) : Prop :=
  List.length g = 5%nat /\ least_squares (fun k => nth k g 0) 5%nat V E n.
(** The stationary point of [g], possibly complex, with the smallest modulus. *)
Definition nearest_stationary (g : list R) (z : C) : Prop :=
  Cvalue (deriv g) z = RtoC 0 /\ forall w, Cvalue (deriv g) w = RtoC 0 -> Cmod z <= Cmod w.

(** ** Polynomials as functions *)
Lemma away_from_zero r s : (forall x, x <> 0 -> polyval x r = polyval x s) -> forall x, polyval x r = polyval x s.
Proof.
  intros H x. set (m := Nat.max (List.length r) (List.length s)).
  set (e := fun k => 1 * nth k r 0 + (-1) * nth k s 0).
  assert (L1 : (List.length r <= m)%nat) by (unfold m; lia). assert (L2 : (List.length s <= m)%nat) by (unfold m; lia).
  assert (P : forall y, poly e m y = polyval y r - polyval y s).
  { intros y. unfold e. rewrite (poly_lin 1 (-1) (fun k => nth k r 0) (fun k => nth k s 0)), !poly_as_polyval by assumption. ring. }
  enough (Q : poly e m x = 0) by (rewrite P in Q; lra).
  apply vanishing_polynomial with (fun j => INR (S j)).
  - intros i j Hi Hj Q. apply INR_eq in Q. lia.
  - intros j Hj. rewrite P, H; [ring|]. apply not_0_INR. lia.
Qed.
Lemma same_complex c : forall d, (forall x, polyval x c = polyval x d) -> forall z, Cvalue c z = Cvalue d z.
Proof.
  assert (N : forall d, (forall x, polyval x d = 0) -> forall z, Cvalue d z = RtoC 0).
  { induction d as [|b s IH]; intros H z; [reflexivity|]. cbn [Cvalue fold_right]. fold (Cvalue s z).
    assert (B : b = 0) by (pose proof (H 0) as Q; rewrite polyval_cons in Q; lra).
    rewrite IH; [rewrite B; now rewrite Cmult_0_r, Cplus_0_r|].
    apply (away_from_zero s []). intros x X. pose proof (H x) as Q. rewrite polyval_cons, B in Q. cbn.
    assert (polyval x s * x = 0) by lra. apply Rmult_integral in H0 as [|]; [assumption|contradiction]. }
  induction c as [|a r IH]; intros d H z.
  - symmetry. apply N. intros x. now rewrite <- H.
  - destruct d as [|b s]; [apply (N (a :: r)); intros; apply H|]. cbn [Cvalue fold_right]. fold (Cvalue r z) (Cvalue s z).
    assert (B : a = b) by (pose proof (H 0) as Q; rewrite !polyval_cons in Q; lra).
    rewrite (IH s), B; [reflexivity|]. apply away_from_zero. intros x X. pose proof (H x) as Q. rewrite !polyval_cons, B in Q.
    apply Rmult_eq_reg_r with x; lra.
Qed.
Lemma same_deriv c d : (forall x, polyval x c = polyval x d) -> forall x, polyval x (deriv c) = polyval x (deriv d).
Proof.
  intros H x. pose proof (poly_derive c x) as A. pose proof (poly_derive d x) as B.
  apply (is_derive_ext _ (fun y => polyval y d)) in A; [|exact H].
  apply is_derive_unique in A. apply is_derive_unique in B. congruence.
Qed.
Lemma Cvalue_real c x : Cvalue c (RtoC x) = RtoC (polyval x c).
Proof.
  induction c as [|a r IH]; [reflexivity|]. cbn [Cvalue fold_right]. fold (Cvalue r (RtoC x)).
  rewrite IH, polyval_cons, RtoC_plus, RtoC_mult. f_equal. apply Cmult_comm.
Qed.
Lemma quartic_unique n V E g h : distinct n V -> (5 <= n)%nat -> quartic_fit n V E g -> quartic_fit n V E h -> forall x, polyval x g = polyval x h.
Proof.
  intros D L (Lg & Fg) (Lh & Fh) x. rewrite <- (poly_as_polyval g 5), <- (poly_as_polyval h 5) by lia.
  now apply least_squares_unique with V E n.
Qed.

(** ** The first smallest value *)
Lemma Rle_b_spec a b : reflect (a <= b) (Rle_b a b).
Proof. unfold Rle_b. destruct (Rle_dec a b); now constructor. Qed.
Lemma argmin_from_spec l : forall best at_best i pre, List.length pre = i -> (at_best < i)%nat -> nth at_best pre 0 = best -> (forall y, In y pre -> best <= y) ->
  let k := argmin_from best at_best i l in (k < List.length (pre ++ l))%nat /\ forall y, In y (pre ++ l) -> nth k (pre ++ l) 0 <= y.
Proof.
  induction l as [|y l IH]; intros best at_best i pre LP A B C k; subst k.
  - cbn. rewrite app_nil_r. split; [lia|]. intros y I. rewrite B. auto.
  - cbn [argmin_from]. replace (pre ++ y :: l) with ((pre ++ [y]) ++ l) by (now rewrite <- app_assoc).
    destruct (Rle_b_spec best y) as [Q|Q]; apply IH; rewrite ?app_length; cbn [List.length]; try lia.
    + rewrite app_nth1 by lia. exact B.
    + intros z I. apply in_app_or in I as [I|[<-|[]]]; auto.
    + rewrite app_nth2, LP, Nat.sub_diag by lia. reflexivity.
    + intros z I. apply in_app_or in I as [I|[<-|[]]]; [apply C in I; lra|lra].
Qed.
Lemma argmin_spec l k : argmin l = Some k -> (k < List.length l)%nat /\ forall y, In y l -> nth k l 0 <= y.
Proof.
  destruct l as [|x l]; [discriminate|]. cbn [argmin]. intros E. injection E as <-.
  apply (argmin_from_spec l x 0 1 [x]); auto. intros y [<-|[]]. lra.
Qed.
Lemma Cmod_le z w : fst (times_conj z) <= fst (times_conj w) <-> Cmod z <= Cmod w.
Proof.
  destruct z as [a b], w as [c d]. unfold Cmod. cbn [times_conj fst snd].
  replace (a * a - b * - b) with (a ^ 2 + b ^ 2) by ring. replace (c * c - d * - d) with (c ^ 2 + d ^ 2) by ring. split; intros H.
  - now apply sqrt_le_1_alt.
  - apply sqrt_le_0 in H; auto; nra.
Qed.

Section Guess.
Variable np_polyfit : fit_function.
Variable roots : list R -> list (R * R).
Hypothesis solver : least_squares_solver np_polyfit.
(** The roots asked for are found. *)
Definition roots_found (n : nat) (V E : nat -> R) : Prop := all_roots roots (deriv (np_polyfit n V E 4%nat)).
Notation ev_guess := (GuessModel.ev_guess np_polyfit roots).

Lemma vanishes_same c d : (forall x, polyval x c = polyval x d) -> vanishes c -> vanishes d.
Proof. intros H N x. now rewrite <- H. Qed.
(** np.polyfit has the fit. *)
Lemma solved n V E : distinct n V -> (5 <= n)%nat -> quartic_fit n V E (np_polyfit n V E 4%nat).
Proof. intros D L. destruct (solver n V E 4%nat D ltac:(lia)) as (A & B). split; assumption. Qed.

(** The guess is the stationary point of the fitted quartic which lies nearest to
    zero in the complex plane, by its real part; energy and bulk modulus are those
    of the quartic there; K' is 4. Without any stationary point: ValueError. *)
Theorem C102_guess n V E g :
  distinct n V -> (5 <= n)%nat -> roots_found n V E -> quartic_fit n V E g ->
  (vanishes (deriv g) \/ (forall z, Cvalue (deriv g) z <> RtoC 0) -> ev_guess n V E = Raises "ValueError") /\
  (~ vanishes (deriv g) -> (exists z, Cvalue (deriv g) z = RtoC 0) ->
   exists z, nearest_stationary g z /\ ev_guess n V E = Ok (polyval (Re z) g, Re z * polyval (Re z) (deriv (deriv g)), 4, Re z)).
Proof.
  intros D L found F. set (p := np_polyfit n V E 4%nat).
  assert (SF : forall x, polyval x p = polyval x g) by (intros x; apply (quartic_unique n V E); auto; now apply solved).
  pose proof (same_deriv _ _ SF) as S1. pose proof (same_deriv _ _ S1) as S2. pose proof (same_complex _ _ S1) as SC.
  destruct found as (Z0 & Z1). fold p in Z0, Z1.
  assert (PF : polyfit np_polyfit n V E 4%nat = Ok p) by (unfold polyfit; destruct (Nat.eqb_spec n 0); [lia|reflexivity]).
  unfold GuessModel.ev_guess. rewrite PF. cbn [bind]. fold p. split.
  - intros H. assert (NR : roots (deriv p) = []).
    { destruct H as [H|H]; [apply Z0; apply (vanishes_same (deriv g)); auto; intros; now rewrite S1|].
      assert (NV : ~ vanishes (deriv p)). { intros N. apply (H (RtoC 0)). rewrite Cvalue_real. now rewrite <- S1, N. }
      destruct (roots (deriv p)) as [|z l] eqn:RE; [reflexivity|]. exfalso. apply (H z). rewrite <- SC. apply (Z1 NV). rewrite ?RE. now left. }
    rewrite NR. reflexivity.
  - intros H (z0 & Hz0). assert (NV : ~ vanishes (deriv p)) by (intros N; apply H; now apply (vanishes_same (deriv p))).
    specialize (Z1 NV). set (l := roots (deriv p)) in *.
    assert (I0 : In z0 l) by (apply Z1; now rewrite SC).
    destruct (argmin (map fst (map times_conj l))) as [k|] eqn:AM.
    + destruct (argmin_spec _ _ AM) as (KL & KM). rewrite !map_length in KL. rewrite map_map in KM.
      set (z := nth k l (0, 0)). assert (Iz : In z l) by now apply nth_In.
      exists z. split; [split|].
      * rewrite <- SC. now apply Z1.
      * intros w W. apply Cmod_le. rewrite <- SC in W. apply Z1 in W.
        specialize (KM (fst (times_conj w))). rewrite nth_indep with (d' := fst (times_conj (0, 0))) in KM by (now rewrite map_length).
        rewrite (map_nth (fun x => fst (times_conj x))) in KM. apply KM. now apply (in_map (fun x => fst (times_conj x))).
      * unfold z, Re. now rewrite SF, S2.
    + exfalso. destruct l; [contradiction|discriminate].
Qed.
(** np.polyfit refuses empty data. *)
Theorem C102_empty V E : ev_guess 0 V E = Raises "TypeError" /\ pv_guess np_polyfit 0 V E = Raises "TypeError".
Proof. split; reflexivity. Qed.

(** On energies which lie on a parabola the guess is the one documented. *)
Theorem C102_parabola n V E a b c :
  distinct n V -> (5 <= n)%nat -> roots_found n V E -> a <> 0 -> (forall j, (j < n)%nat -> E j = a * V j ^ 2 + b * V j + c) ->
  let V0 := - b / (2 * a) in ev_guess n V E = Ok (a * V0 ^ 2 + b * V0 + c, 2 * a * V0, 4, V0).
Proof.
  intros D L RF A EE V0. set (g := [c; b; a; 0; 0]).
  assert (F : quartic_fit n V E g).
  { split; [reflexivity|]. intros k Hk. rewrite (psum_ext _ (fun _ => 0)); [apply psum_0|].
    intros j Hj. rewrite EE by assumption. unfold poly. cbn. ring. }
  destruct (C102_guess n V E g D L RF F) as (_ & H).
  assert (CV : forall z, Cvalue (deriv g) z = Cplus (RtoC b) (Cmult z (RtoC (2 * a)))).
  { intros z. rewrite (same_complex (deriv g) [b; 2 * a]).
    - cbn [Cvalue fold_right]. now rewrite Cmult_0_r, Cplus_0_r.
    - intros x. unfold g. cbn [deriv deriv_aux polyval]. simpl (INR _). ring. }
  destruct H as (z & (Z & _) & ->).
  - intros N. pose proof (N (V0 + 1)) as N1. unfold g, V0 in N1. cbn [deriv deriv_aux polyval] in N1. simpl (INR _) in N1. assert (2 * a = 0) by (rewrite <- N1; field; lra). lra.
  - exists (RtoC V0). rewrite CV, <- RtoC_mult, <- RtoC_plus. f_equal. unfold V0. field. lra.
  - assert (ZV : Re z = V0).
    { rewrite CV in Z. destruct z as [x y]. unfold Cplus, Cmult, RtoC in Z. cbn in Z. injection Z as Z1 Z2. unfold Re, V0. cbn [fst].
      apply Rmult_eq_reg_l with (2 * a); [|lra]. replace (2 * a * (- b / (2 * a))) with (- b) by (field; lra). lra. }
    rewrite ZV. unfold g. cbn [deriv deriv_aux polyval]. simpl (INR _). do 4 f_equal; ring.
Qed.

(** Another unit or zero of the energies and another unit of the volumes change the
    guess accordingly, as long as the nearest stationary point is determined (but
    for the sign of its imaginary part). *)
Definition determined (g : list R) : Prop := forall z w, nearest_stationary g z -> nearest_stationary g w -> Re z = Re w.
Theorem C102_units n V E g s e t E0 K0 KP V0 :
  distinct n V -> (5 <= n)%nat -> roots_found n V E -> roots_found n (fun j => t * V j) (fun j => s * E j + e) ->
  quartic_fit n V E g -> determined g -> s <> 0 -> 0 < t ->
  ev_guess n V E = Ok (E0, K0, KP, V0) ->
  ev_guess n (fun j => t * V j) (fun j => s * E j + e) = Ok (s * E0 + e, s * K0 / t, KP, t * V0).
Proof.
  intros D L RF RF' F DE Hs Ht GE.
  assert (D' : distinct n (fun j => t * V j)) by (intros i j Hi Hj Q; apply D; auto; apply Rmult_eq_reg_l with t; lra).
  destruct F as (Lg & Fg). destruct g as [|g0 [|g1 [|g2 [|g3 [|g4 [|]]]]]]; try discriminate. clear Lg.
  set (g := [g0; g1; g2; g3; g4]) in *. set (h := [s * g0 + e; s * g1 / t; s * g2 / t ^ 2; s * g3 / t ^ 3; s * g4 / t ^ 4]).
  assert (HV : forall x, polyval (t * x) h = s * polyval x g + e) by (intros x; unfold h, g; cbn [polyval]; field; lra).
  assert (HD : forall x, polyval (t * x) (deriv h) = s / t * polyval x (deriv g)) by (intros x; unfold h, g; cbn [deriv deriv_aux polyval]; simpl (INR _); field; lra).
  assert (HD2 : forall x, polyval (t * x) (deriv (deriv h)) = s / t ^ 2 * polyval x (deriv (deriv g))) by (intros x; unfold h, g; cbn [deriv deriv_aux polyval]; simpl (INR _); field; lra).
  assert (HC : forall z, Cvalue (deriv h) (Cmult (RtoC t) z) = Cmult (RtoC (s / t)) (Cvalue (deriv g) z)).
  { intros [x y]. unfold h, g. cbn [deriv deriv_aux Cvalue fold_right]. simpl (INR _). unfold Cplus, Cmult, RtoC. cbn [fst snd]. f_equal; field; lra. }
  assert (NV : forall x, x / t * t = x) by (intros; field; lra).
  assert (F : quartic_fit n V E g) by (split; [reflexivity|exact Fg]).
  assert (F' : quartic_fit n (fun j => t * V j) (fun j => s * E j + e) h).
  { split; [reflexivity|]. intros k Hk. pose proof (Fg k Hk) as Q.
    rewrite (psum_ext _ (fun j => (t ^ k * s) * ((E j - poly (fun k => nth k g 0) 5 (V j)) * V j ^ k))).
    - rewrite psum_scal. rewrite Q. ring.
    - intros j Hj. rewrite (poly_as_polyval h 5), (poly_as_polyval g 5) by reflexivity. rewrite HV, Rpow_mult_distr. ring. }
  destruct (C102_guess n V E g D L RF F) as (R0 & R1). destruct (C102_guess n _ _ h D' L RF' F') as (_ & R1').
  destruct (Classical_Prop.classic (vanishes (deriv g))) as [N|N]; [rewrite R0 in GE by auto; discriminate|].
  destruct (Classical_Prop.classic (exists z, Cvalue (deriv g) z = RtoC 0)) as [X|X].
  2: { rewrite R0 in GE; [discriminate|]. right. intros z Z. apply X. now exists z. }
  destruct (R1 N X) as (z & NZ & R2). rewrite R2 in GE. injection GE as <- <- <- <-.
  assert (CB : forall w, w = Cmult (RtoC t) (Cmult (RtoC (/ t)) w)).
  { intros w. rewrite Cmult_assoc, <- RtoC_mult, Rinv_r, Cmult_1_l by lra. reflexivity. }
  assert (Q : s / t <> 0) by (unfold Rdiv; apply Rmult_integral_contrapositive_currified; [assumption|apply Rinv_neq_0_compat; lra]).
  assert (ZE : forall w, Cvalue (deriv h) (Cmult (RtoC t) w) = RtoC 0 <-> Cvalue (deriv g) w = RtoC 0).
  { intros w. rewrite HC. split; intros H; [|rewrite H; apply Cmult_0_r].
    destruct (Ceq_dec (Cvalue (deriv g) w) (RtoC 0)) as [|NE]; [assumption|]. exfalso.
    apply (Cmult_neq_0 (RtoC (s / t)) (Cvalue (deriv g) w)); auto. intros Y. apply RtoC_inj in Y. contradiction. }
  destruct R1' as (z' & NZ' & ->).
  - intros H. apply N. intros x. pose proof (H (t * x)) as H'. rewrite HD in H'. apply Rmult_integral in H' as [|]; [contradiction|assumption].
  - destruct X as (w & W). exists (Cmult (RtoC t) w). now apply ZE.
  - assert (NW : nearest_stationary g (Cmult (RtoC (/ t)) z')).
    { destruct NZ' as (A & B). rewrite (CB z') in A. split; [now apply ZE|]. intros w W. apply ZE in W. apply B in W.
      rewrite (CB z'), (Cmod_mult (RtoC t) w), (Cmod_mult (RtoC t) (Cmult (RtoC (/ t)) z')) in W.
      rewrite Cmod_R, Rabs_right in W by lra. apply Rmult_le_reg_l with t; [exact Ht|exact W]. }
    assert (RZ : Re z' = t * Re z).
    { rewrite (DE z _ NZ NW). destruct z' as [x y]. unfold Re, Cmult, RtoC. cbn. field. lra. }
    rewrite RZ, HV, HD2.
    do 3 f_equal. f_equal.
    unfold g. cbn [deriv deriv_aux polyval]. simpl (INR _). field. lra.
Qed.

(** ** EnergyEOS.fit *)
Variable curve_fit : ev_form -> nat -> (nat -> R) -> (nat -> R) -> R * R * R * R -> outcome ((R * R * R * R) * (shown * shown * shown * shown)).
Notation ev_fit := (GuessModel.ev_fit np_polyfit roots curve_fit).
(** A standard error: the square root of a variance. *)
Definition standard_error (variance error : shown) : Prop :=
  match variance, error with
  | Fin v, Fin e => 0 <= e /\ e * e = v
  | Fin v, Nan => v < 0
  | Inf, Inf => True
  | Nan, Nan => True
  | _, _ => False
  end.
(** The form of the tag is fitted from the guess; the errors are the square roots of
    the variances. An unknown tag raises TypeError; the exceptions of the guess and
    of curve_fit are passed on. *)
Theorem C102_fit tag n V E :
  match ev_guess n V E with
  | Raises x => ev_fit tag n V E = Raises x
  | Ok p0 =>
      match set_eos_type tag with
      | None => ev_fit tag n V E = Raises "TypeError"
      | Some form =>
          match curve_fit form n V E p0 with
          | Raises x => ev_fit tag n V E = Raises x
          | Ok (parameters, (c1, c2, c3, c4)) => exists e1 e2 e3 e4, ev_fit tag n V E = Ok (parameters, (e1, e2, e3, e4)) /\
              standard_error c1 e1 /\ standard_error c2 e2 /\ standard_error c3 e3 /\ standard_error c4 e4
          end
      end
  end.
Proof.
  assert (SE : forall c, standard_error c (sqrt_shown c)).
  { intros [v| |]; cbn; auto. destruct (Rle_b_spec 0 v); cbn; [split; [apply sqrt_pos|now apply sqrt_sqrt]|lra]. }
  unfold GuessModel.ev_fit. destruct (ev_guess n V E) as [p0|x]; [|reflexivity]. cbn [bind].
  destruct (set_eos_type tag) as [form|]; [|reflexivity].
  destruct (curve_fit form n V E p0) as [[pars [[[c1 c2] c3] c4]]|x]; [|reflexivity]. cbn [bind].
  exists (sqrt_shown c1), (sqrt_shown c2), (sqrt_shown c3), (sqrt_shown c4). auto.
Qed.
End Guess.

(** ** The P(V) guess *)
(** A polynomial through the points. *)
Lemma interpolation : forall m X Y, distinct m X -> exists c, List.length c = m /\ forall j, (j < m)%nat -> polyval (X j) c = Y j.
Proof.
  assert (ND : forall m X x, (forall j, (j < m)%nat -> X j <> x) -> exists c, List.length c = S m /\ (forall j, (j < m)%nat -> polyval (X j) c = 0) /\ polyval x c <> 0).
  { induction m as [|m IH]; intros X x H.
    - exists [1]. cbn. repeat split; [lia|lra].
    - destruct (IH X x) as (c & LC & Z & N); [intros; apply H; lia|].
      assert (MU : forall a d, exists d', List.length d' = S (List.length d) /\ forall y, polyval y d' = (y - a) * polyval y d).
      { intros a d. induction d as [|b d (d' & LD & HD)]; [exists [0]; split; [reflexivity|intros; cbn; ring]|].
        destruct d' as [|b' d']; [discriminate|]. exists (- a * b :: b + b' :: d'). split; [cbn in *; lia|].
        intros y. pose proof (HD y) as Q. rewrite !polyval_cons in *. rewrite Rmult_plus_distr_r. 
        replace ((y - a) * (b + polyval y d * y)) with ((y - a) * b + ((y - a) * polyval y d) * y) by ring. rewrite <- Q. ring. }
      destruct (MU (X m) c) as (c' & LC' & HC). exists c'. rewrite LC', LC. split; [reflexivity|]. split.
      + intros j Hj. rewrite HC. destruct (Nat.eq_dec j m) as [->|]; [ring|]. rewrite Z by lia. ring.
      + rewrite HC. apply Rmult_integral_contrapositive_currified; [|exact N]. intros Q. apply (H m); [lia|lra]. }
  induction m as [|m IH]; intros X Y D; [exists []; split; [reflexivity|lia]|].
  destruct (IH X Y) as (c & LC & HC); [intros i j Hi Hj; apply D; lia|].
  destruct (ND m X (X m)) as (d & LD & ZD & N). { intros j Hj Q. apply D in Q; lia. }
  set (q := (Y m - polyval (X m) c) / polyval (X m) d).
  assert (AD : forall q c d, (List.length c <= List.length d)%nat -> exists e, List.length e = List.length d /\ forall y, polyval y e = polyval y c + q * polyval y d).
  { clear. intros q c. induction c as [|a c IH]; intros [|b d] L.
    - exists []. split; [reflexivity|]. intros; cbn; ring.
    - exists (map (Rmult q) (b :: d)). split; [now rewrite map_length|]. intros y. clear L. induction (b :: d) as [|x l IL]; [cbn; ring|].
      cbn [map]. rewrite !polyval_cons. rewrite IL. change (polyval y []) with 0. ring.
    - cbn in L; lia.
    - destruct (IH d) as (e & LE & HE); [cbn in L; lia|]. exists (a + q * b :: e). split; [cbn; now rewrite LE|].
      intros y. rewrite !polyval_cons, HE. ring. }
  destruct (AD q c d ltac:(lia)) as (e & LE & HE). exists e. split; [lia|]. intros j Hj. rewrite HE.
  destruct (Nat.eq_dec j m) as [->|NE]; [unfold q; field; exact N|]. rewrite HC, ZD by lia. ring.
Qed.
Section Pressure.
Variable np_polyfit : fit_function.
Hypothesis solver : least_squares_solver np_polyfit.
Notation pv_guess := (GuessModel.pv_guess np_polyfit).
Definition cubic_fit (n : nat) (X Y : nat -> R) (g : list R) : Prop := List.length g = 4%nat /\ least_squares (fun k => nth k g 0) 4 X Y n.

(** V0 is the value at zero pressure of the cubic fitted to V(P); K0 is -V dP/dV
    there, for the cubic fitted to P(V); K' = 4 and K'' = 0. *)
Theorem C102_pv n V P gp gv :
  distinct n V -> distinct n P -> (4 <= n)%nat -> cubic_fit n P V gp -> cubic_fit n V P gv ->
  exists K0 dP, is_derive (fun v => polyval v gv) (polyval 0 gp) dP /\ K0 = - polyval 0 gp * dP /\ pv_guess n V P = Ok [K0; 4; 0; polyval 0 gp].
Proof.
  intros DV DP L (Lp & Fp) (Lv & Fv).
  assert (U : forall X Y g, distinct n X -> List.length g = 4%nat -> least_squares (fun k => nth k g 0) 4 X Y n -> forall x, polyval x (np_polyfit n X Y 3%nat) = polyval x g).
  { intros X Y g DX Lg F x. destruct (solver n X Y 3%nat DX ltac:(lia)) as (LA & FA).
    rewrite <- (poly_as_polyval g 4), <- (poly_as_polyval (np_polyfit n X Y 3%nat) 4) by lia. now apply least_squares_unique with X Y n. }
  unfold GuessModel.pv_guess, polyfit. destruct (Nat.eqb_spec n 0); [lia|]. cbn [bind].
  rewrite (U P V gp) by assumption.
  exists (- polyval 0 gp * polyval (polyval 0 gp) (deriv gv)), (polyval (polyval 0 gp) (deriv gv)). split; [apply poly_derive|]. split; [reflexivity|].
  now rewrite (same_deriv _ gv (U V P gv DV Lv Fv)).
Qed.
(** On data which lie on a straight line, the guess has its zero and its slope. *)
Theorem C102_pv_line n V P v0 k0 :
  distinct n V -> (4 <= n)%nat -> v0 <> 0 -> k0 <> 0 -> (forall j, (j < n)%nat -> P j = k0 * (v0 - V j) / v0) ->
  pv_guess n V P = Ok [k0; 4; 0; v0].
Proof.
  intros DV L Hv Hk HP.
  assert (DP : distinct n P).
  { intros i j Hi Hj Q. rewrite !HP in Q by assumption. apply DV; auto.
    apply Rmult_eq_reg_l with (- k0 / v0); [|apply Rmult_integral_contrapositive_currified; [lra|now apply Rinv_neq_0_compat]].
    replace (- k0 / v0 * V i) with (k0 * (v0 - V i) / v0 - k0) by (field; auto). rewrite Q. field; auto. }
  assert (Z : forall X Y g, List.length g = 4%nat -> (forall j, (j < n)%nat -> Y j = polyval (X j) g) -> cubic_fit n X Y g).
  { intros X Y g Lg HY. split; [exact Lg|]. intros k Hk'. rewrite (psum_ext _ (fun _ => 0)); [apply psum_0|].
    intros j Hj. rewrite (poly_as_polyval g 4), HY by (assumption || lia). ring. }
  destruct (C102_pv n V P [v0; - v0 / k0; 0; 0] [k0; - k0 / v0; 0; 0] DV DP L) as (K0 & dP & DD & HK & ->).
  - apply Z; [reflexivity|]. intros j Hj. rewrite HP by assumption. cbn. field. auto.
  - apply Z; [reflexivity|]. intros j Hj. rewrite HP by assumption. cbn. field. auto.
  - apply is_derive_unique in DD. rewrite (is_derive_unique _ _ _ (poly_derive _ _)) in DD. subst K0 dP.
    cbn [deriv deriv_aux polyval]. simpl (INR _). do 2 f_equal; [field; auto|]. do 3 f_equal. ring.
Qed.
(** With four points of which one is at zero pressure, V0 is its volume. *)
Theorem C102_pv_reference V P i :
  distinct 4 V -> distinct 4 P -> (i < 4)%nat -> P i = 0 -> exists K0, pv_guess 4 V P = Ok [K0; 4; 0; V i].
Proof.
  intros DV DP Hi H0.
  assert (Z : forall X Y g, List.length g = 4%nat -> (forall j, (j < 4)%nat -> polyval (X j) g = Y j) -> cubic_fit 4 X Y g).
  { intros X Y g Lg HY. split; [exact Lg|]. intros k Hk'. rewrite (psum_ext _ (fun _ => 0)); [apply psum_0|].
    intros j Hj. rewrite (poly_as_polyval g 4), HY by (assumption || lia). ring. }
  destruct (interpolation 4 P V DP) as (gp & Lp & Ip). destruct (interpolation 4 V P DV) as (gv & Lv & Iv).
  destruct (C102_pv 4 V P gp gv DV DP (le_n 4)) as (K0 & dP & _ & _ & ->); try (now apply Z).
  exists K0. rewrite <- H0, Ip by assumption. reflexivity.
Qed.
(** For an axis: on a straight line the guess is the modulus of the axis, -l dP/dl,
    which is what the parameter K0 of the fitted curve means; the fit starts from
    three times that value. *)
Theorem C102_axis_refuted n L P l0 m0 :
  distinct n L -> (4 <= n)%nat -> 0 < l0 -> 0 < m0 -> (forall j, (j < n)%nat -> P j = m0 * (l0 - L j) / l0) ->
  exists guess, pv_guess n L P = Ok guess /\
    EosFitModel.start (fst (EosFitModel.fit (A := unit) guess None None None 3 true None)) = [3 * m0; 4; 0; l0] /\
    (forall k0 k1 k2, 0 < k0 -> let p := {| PvEosModel.K0 := k0; PvEosModel.K1 := k1; PvEosModel.K2 := k2; PvEosModel.V0 := l0 |} in
      exists q k2', PvEosSpec.reference_state (PvEosProps.curve PvEosModel.birch_murnaghan p 3 true true) l0 k0 q k2').
Proof.
  intros DL LE Hl Hm HP. exists [m0; 4; 0; l0]. split; [apply C102_pv_line; auto; lra|]. split.
  - cbn. f_equal. ring.
  - intros k0 k1 k2 Hk p. pose proof (PvEosProps.C16_birch_murnaghan p 3 true true) as Q.
    destruct (PvEosProps.pars_kept PvEosModel.birch_murnaghan p (PvEosModel.V0 p) 3 true true) as (_ & E0 & EV); [simpl; auto|].
    unfold PvEosProps.left_by in Q. rewrite E0, EV in Q. cbv zeta in Q. eexists _, _. apply Q. split; cbn; lra.
Qed.
End Pressure.

(** ** Instances *)
(** Five volumes around the minimum, at V = 2, of energies on a quartic which has
    maxima at V = 1 and V = 4. *)
Definition cells (j : nat) : R := 3 / 2 + INR j / 4.
Definition energies (j : nat) : R := polyval (cells j) [0; 8; -7; 7 / 3; -1 / 4].
(** Roots: those of [deriv] of the polynomial above; exact for no other. *)
Definition three_roots (_ : list R) : list (R * R) := [(4, 0); (1, 0); (2, 0)].
Lemma cells_distinct : distinct 5 cells.
Proof. intros i j Hi Hj Q. unfold cells in Q. apply INR_eq. lra. Qed.
(** The guess is not the minimum of the energies, nor a minimum at all: it lies
    outside of the volumes and its bulk modulus is negative. *)
Theorem C102_minimum_refuted :
  exists n V E g roots E0 K0 V0 v,
    distinct n V /\ quartic_fit n V E g /\ (forall z, In z (roots (deriv g)) <-> Cvalue (deriv g) z = RtoC 0) /\
    (forall np_polyfit, np_polyfit n V E 4%nat = g -> ev_guess np_polyfit roots n V E = Ok (E0, K0, 4, V0)) /\
    strict_local_minimum (fun x => polyval x g) v /\ (exists i j, V i < v < V j) /\
    (forall j, V0 < V j) /\ K0 < 0.
Proof.
  set (g := [0; 8; -7; 7 / 3; -1 / 4]).
  exists 5%nat, cells, energies, g, three_roots, (polyval 1 g), (-3), 1, 2.
  split; [exact cells_distinct|]. split; [|split; [|split; [|split; [|split; [|split]]]]].
  - split; [reflexivity|]. intros k Hk. rewrite (psum_ext _ (fun _ => 0)); [apply psum_0|].
    intros j Hj. rewrite (poly_as_polyval g 5) by (cbn; lia). unfold energies, g. ring.
  - intros z. assert (CV : Cvalue (deriv g) z = Copp (Cmult (Cminus z (RtoC 1)) (Cmult (Cminus z (RtoC 2)) (Cminus z (RtoC 4))))).
    { destruct z as [x y]. unfold g. cbn [deriv deriv_aux Cvalue fold_right]. simpl (INR _). unfold Cplus, Cmult, Cminus, Copp, RtoC, Cplus. cbn [fst snd]. f_equal; field. }
    rewrite CV. unfold three_roots. cbn [In]. split.
    + assert (CC : forall x : C, Cminus x x = RtoC 0) by (intros; unfold Cminus; apply Cplus_opp_r).
      intros [<-|[<-|[<-|[]]]]; unfold Cminus, Cplus, Copp, Cmult, RtoC; cbn [fst snd]; f_equal; ring.
    + intros Q. assert (ZZ : forall a, Cminus z (RtoC a) = RtoC 0 -> (a, 0) = z).
      { intros a H. destruct z as [x y]. unfold Cminus, Cplus, Copp, RtoC in H. cbn in H. injection H as H1 H2. f_equal; lra. }
      assert (NZ : forall a b, Cmult a b = RtoC 0 -> a = RtoC 0 \/ b = RtoC 0).
      { intros a b H. destruct (Ceq_dec a (RtoC 0)); [auto|]. destruct (Ceq_dec b (RtoC 0)); [auto|]. exfalso. now apply (Cmult_neq_0 a b). }
      assert (Q' : Cmult (Cminus z (RtoC 1)) (Cmult (Cminus z (RtoC 2)) (Cminus z (RtoC 4))) = RtoC 0).
      { destruct (Cmult _ _) as [x y]. unfold Copp, RtoC in Q. cbn in Q. injection Q as Q1 Q2. unfold RtoC. f_equal; lra. }
      apply NZ in Q' as [H|H]; [right; left; now apply ZZ|]. apply NZ in H as [H|H]; [right; right; left|left]; now apply ZZ.
  - intros np H. unfold ev_guess, polyfit. cbn [Nat.eqb bind]. rewrite H.
    assert (AM : argmin (map fst (map times_conj (three_roots (deriv g)))) = Some 1%nat).
    { cbn [three_roots map times_conj fst argmin argmin_from].
      destruct (Rle_b_spec (4 * 4 - 0 * - 0) (1 * 1 - 0 * - 0)); [lra|]. destruct (Rle_b_spec (1 * 1 - 0 * - 0) (2 * 2 - 0 * - 0)); [reflexivity|lra]. }
    rewrite AM. cbn [three_roots nth fst]. do 4 f_equal. unfold g. cbn [deriv deriv_aux polyval]. simpl (INR _). lra.
  - apply (second_derivative_test _ (fun x => polyval x (deriv g)) 2 (polyval 2 (deriv (deriv g)))).
    + intros x. apply poly_derive.
    + unfold g. cbn [deriv deriv_aux polyval]. simpl (INR _). lra.
    + apply poly_derive.
    + unfold g. cbn [deriv deriv_aux polyval]. simpl (INR _). lra.
  - exists 0%nat, 4%nat. unfold cells. simpl. lra.
  - intros j. unfold cells. pose proof (pos_INR j). lra.
  - lra.
Qed.
(** Energies on a parabola with its minimum at V = 10. *)
Definition bowl_cells (j : nat) : R := 8 + INR j.
Definition bowl (j : nat) : R := 3 * bowl_cells j ^ 2 + -60 * bowl_cells j + 7.
Example C102_parabola_instance : ev_guess gram_schmidt_fit (fun _ => [(10, 0)]) 5 bowl_cells bowl = Ok (-293, 60, 4, 10).
Proof.
  assert (D : distinct 5 bowl_cells) by (intros i j _ _ Q; apply INR_eq; unfold bowl_cells in Q; lra).
  assert (S : forall x, polyval x (gram_schmidt_fit 5%nat bowl_cells bowl 4%nat) = polyval x [7; -60; 3]).
  { intros x. apply (fit_exact gram_schmidt_fit gram_schmidt_solver); [exact D|lia|cbn; lia|]. intros j _. unfold bowl. cbn. ring. }
  pose proof (same_deriv _ _ S) as S1.
  rewrite (C102_parabola gram_schmidt_fit (fun _ => [(10, 0)]) gram_schmidt_solver 5%nat bowl_cells bowl 3 (-60) 7).
  - do 3 f_equal; [f_equal|]; lra.
  - exact D.
  - lia.
  - split.
    + intros N. pose proof (N 0) as Q. rewrite S1 in Q. cbn in Q. lra.
    + intros _ z. rewrite (same_complex _ _ S1). destruct z as [x y]. cbn [In deriv deriv_aux Cvalue fold_right]. simpl (INR _).
      unfold Cplus, Cmult, RtoC. cbn [fst snd]. split.
      * intros [Q|[]]. injection Q as <- <-. f_equal; ring.
      * intros Q. injection Q as Q1 Q2. left. f_equal; lra.
  - lra.
  - reflexivity.
Qed.
(** Pressures on the line P = 160 (10 - V) / 10. *)
Example C102_pv_instance :
  pv_guess gram_schmidt_fit 6 (fun j => 8 + INR j / 2) (fun j => 160 * (10 - (8 + INR j / 2)) / 10) = Ok [160; 4; 0; 10].
Proof. apply C102_pv_line; try lra; [exact gram_schmidt_solver| |lia|reflexivity]. intros i j _ _ Q. apply INR_eq. lra. Qed.
(** In thousandths of the unit of energy and in cubic bohr or any other unit of
    volume the guess for the parabola is the same state. *)
Example C102_units_instance : determined [7; -60; 3; 0; 0] /\ quartic_fit 5 bowl_cells bowl [7; -60; 3; 0; 0].
Proof.
  split.
  - assert (U : forall z, Cvalue (deriv [7; -60; 3; 0; 0]) z = RtoC 0 -> Re z = 10).
    { intros z. rewrite (same_complex _ [-60; 6]) by (intros x; cbn [deriv deriv_aux polyval]; simpl (INR _); ring).
      destruct z as [x y]. cbn [Cvalue fold_right]. unfold Cplus, Cmult, RtoC, Re. cbn [fst snd]. intros Q. injection Q as Q1 Q2. lra. }
    intros z w (Z & _) (W & _). now rewrite (U z Z), (U w W).
  - split; [reflexivity|]. intros k Hk. rewrite (psum_ext _ (fun _ => 0)); [apply psum_0|].
    intros j Hj. unfold bowl, poly. cbn. ring.
Qed.
(** Four points, the second at zero pressure. *)
Example C102_pv_reference_instance :
  exists K0, pv_guess gram_schmidt_fit 4 (fun j => 12 - INR j) (fun j => (INR j - 1) * (INR j + 5)) = Ok [K0; 4; 0; 11].
Proof.
  destruct (C102_pv_reference gram_schmidt_fit gram_schmidt_solver (fun j => 12 - INR j) (fun j => (INR j - 1) * (INR j + 5)) 1) as (K0 & ->).
  - intros i j _ _ Q. apply INR_eq. lra.
  - intros i j _ _ Q. apply INR_eq. pose proof (pos_INR i). pose proof (pos_INR j).
    assert (E : (INR i - INR j) * (INR i + INR j + 4) = 0) by lra. apply Rmult_integral in E as [|]; lra.
  - lia.
  - cbn. ring.
  - exists K0. do 4 f_equal. cbn. f_equal. lra.
Qed.

Print Assumptions C102_guess.
Print Assumptions C102_empty.
Print Assumptions C102_parabola.
Print Assumptions C102_units.
Print Assumptions C102_fit.
Print Assumptions C102_pv.
Print Assumptions C102_pv_line.
Print Assumptions C102_pv_reference.
Print Assumptions C102_axis_refuted.
Print Assumptions C102_minimum_refuted.
