(** C74: group velocity, Hessian and enhancement arrays are exact derivatives. *)
From Coq Require Import Reals List Arith Lia Lra Psatz.
From Coquelicot Require Import Coquelicot.
From Verif Require Import SymmetryModel TensorModel TensorProps AverageProps QhaRunModel SeismicModel SeismicProps SeismicLinear.
Import ListNotations.
Open Scope R_scope.

(** ** Small lemmas on derivatives of sums of three products *)
(** same goal, with the type written R *)
Ltac realeq := match goal with |- ?a = ?b => change (@eq R a b) end.
Lemma derive_mult (f g : R -> R) x f' g' : is_derive f x f' -> is_derive g x g' -> is_derive (fun t => f t * g t) x (f' * g x + f x * g').
Proof.
  intros A B. evar_last; [apply (is_derive_mult f g x f' g' A B); intros; apply Rmult_comm|].
  unfold plus, mult; simpl. reflexivity.
Qed.
Lemma derive_sum3 (f : nat -> R -> R) x f' : (forall k, (k < 3)%nat -> is_derive (f k) x (f' k)) ->
  is_derive (fun t => sum3 (fun k => f k t)) x (sum3 f').
Proof.
  intros A. unfold sum3. apply (is_derive_plus (fun t => f 0%nat t + f 1%nat t) (f 2%nat)); [|apply A; lia].
  apply (is_derive_plus (f 0%nat) (f 1%nat)); apply A; lia.
Qed.
Lemma derive_eq (f : R -> R) x a b : is_derive f x a -> a = b -> is_derive f x b.
Proof. now intros A <-. Qed.
Lemma derive_zero_of_const (f : R -> R) x a c : is_derive f x a -> locally x (fun t => f t = c) -> a = 0.
Proof.
  intros A L. assert (B : is_derive (fun _ => c) x a).
  { apply (is_derive_ext_loc f); [|exact A]. revert L. apply filter_imp. auto. }
  rewrite <- (is_derive_unique _ _ _ B). apply Derive_const.
Qed.

(** A field of eigenpairs along one coordinate line: [u t], [l t] is a normalised
    eigenpair at the direction whose [b]-th component is [t]; differentiable at
    the direction [d]. Such a field exists wherever the eigenvalue is simple. *)
Record smooth_mode (T : tensor4) (d : vec) (b : nat) (l : R -> R) (u : R -> vec) (dl : R) (du : vec) : Prop := {
  mode_pair : locally (d b) (fun t => eigenpair (christoffel T (upd d b t)) (l t) (u t));
  mode_l : is_derive l (d b) dl;
  mode_u : forall k, (k < 3)%nat -> is_derive (fun t => u t k) (d b) (du k) }.
Definition symmetric_christoffel (T : tensor4) : Prop :=
  forall n i k, (i < 3)%nat -> (k < 3)%nat -> christoffel T n i k = christoffel T n k i.
(** No other polarisation has this eigenvalue. *)
Definition simple_eigenvalue (M : mat3) (lam : R) (u : vec) : Prop :=
  forall w, (forall i, (i < 3)%nat -> apply3 M w i = lam * w i) -> exists c, forall i, (i < 3)%nat -> w i = c * u i.

Lemma upd_same d b i l T : (b < 3)%nat -> christoffel T (upd d b (d b)) i l = christoffel T d i l /\
  forall a, gradient T (upd d b (d b)) a i l = gradient T d a i l.
Proof.
  intros Hb. unfold christoffel, gradient, sum3, upd.
  destruct b as [|[|[|b]]]; [| | |exfalso; lia]; cbn [Nat.eqb]; auto.
Qed.
Lemma gradient_symmetric T : symmetric_christoffel T -> forall d a i k, (a < 3)%nat -> (i < 3)%nat -> (k < 3)%nat ->
  gradient T d a i k = gradient T d a k i.
Proof.
  intros Y d a i k Ha Hi Hk.
  rewrite <- (is_derive_unique _ _ _ (C49_gradient T d a i k Ha Hi Hk)), <- (is_derive_unique _ _ _ (C49_gradient T d a k i Ha Hk Hi)).
  apply Derive_ext. intros t. apply Y; assumption.
Qed.

Section Mode.
Variable T : tensor4.
Hypothesis SYM : symmetric_christoffel T.
Variable d : vec.
Variable b : nat.
Hypothesis Hb : (b < 3)%nat.
Variables (l : R -> R) (u : R -> vec) (dl : R) (du : vec).
Hypothesis SM : smooth_mode T d b l u dl du.
Let U := u (d b).
Let lam := l (d b).
Let M := christoffel T d.
Let G := gradient T d.

Lemma pair_here : (forall i, (i < 3)%nat -> apply3 M U i = lam * U i) /\ dot U U = 1.
Proof.
  destruct SM as [P _ _]. apply locally_singleton in P. destruct P as [E N]. split; [|exact N].
  intros i Hi. unfold U, lam. rewrite <- (E i Hi). unfold apply3, sum_3, M.
  rewrite !(fun i k => proj1 (upd_same d b i k T Hb)). reflexivity.
Qed.
Lemma du_orthogonal : dot U du = 0.
Proof.
  destruct SM as [P _ DU].
  assert (A : is_derive (fun t => sum3 (fun k => u t k * u t k)) (d b) (sum3 (fun k => du k * U k + U k * du k))).
  { apply derive_sum3. intros k Hk. apply derive_mult; apply DU; exact Hk. }
  assert (Z : sum3 (fun k => du k * U k + U k * du k) = 0).
  { apply (derive_zero_of_const _ _ _ 1 A). revert P. apply filter_imp. intros t [_ N]. exact N. }
  unfold sum3 in Z. unfold dot. lra.
Qed.
Lemma differentiated i : (i < 3)%nat ->
  apply3 (G b) U i + apply3 M du i = dl * U i + lam * du i.
Proof.
  intros Hi. destruct SM as [P DL DU].
  assert (A : is_derive (fun t => sum3 (fun k => christoffel T (upd d b t) i k * u t k) - l t * u t i) (d b)
     (sum3 (fun k => G b i k * U k + christoffel T (upd d b (d b)) i k * du k) - (dl * U i + lam * du i))).
  { apply (is_derive_minus (fun t => sum3 (fun k => christoffel T (upd d b t) i k * u t k)) (fun t => l t * u t i)).
    - apply derive_sum3. intros k Hk. apply derive_mult; [apply C49_gradient; assumption|apply DU; exact Hk].
    - apply derive_mult; [exact DL|apply DU; exact Hi]. }
  assert (Z := derive_zero_of_const _ _ _ 0 A).
  assert (LOC : locally (d b) (fun t => sum3 (fun k => christoffel T (upd d b t) i k * u t k) - l t * u t i = 0)).
  { revert P. apply filter_imp. intros t [E _]. specialize (E i Hi). unfold apply3, sum_3 in E. unfold sum3. lra. }
  specialize (Z LOC). unfold sum3 in Z. rewrite !(fun i k => proj1 (upd_same d b i k T Hb)) in Z.
  unfold apply3, sum_3, M. fold G in Z. lra.
Qed.
(** dlambda/dd_b = u . (dM/dd_b) u: the gradient array is the gradient. *)
Lemma hellmann_feynman : dl = sum3 (fun k => U k * sum3 (fun i => G b k i * U i)).
Proof.
  pose proof (differentiated 0%nat ltac:(lia)) as D0. pose proof (differentiated 1%nat ltac:(lia)) as D1. pose proof (differentiated 2%nat ltac:(lia)) as D2.
  destruct pair_here as [E N].
  pose proof (E 0%nat ltac:(lia)) as E0. pose proof (E 1%nat ltac:(lia)) as E1. pose proof (E 2%nat ltac:(lia)) as E2.
  assert (Y : forall i k, (i < 3)%nat -> (k < 3)%nat -> M i k = M k i) by (intros; apply SYM; assumption).
  unfold apply3, sum_3, dot in *. unfold sum3.
  rewrite (Y 1%nat 0%nat), (Y 2%nat 0%nat), (Y 2%nat 1%nat) in * by lia.
  assert (X : U 0%nat * (M 0%nat 0%nat * du 0%nat + M 0%nat 1%nat * du 1%nat + M 0%nat 2%nat * du 2%nat)
    + U 1%nat * (M 0%nat 1%nat * du 0%nat + M 1%nat 1%nat * du 1%nat + M 1%nat 2%nat * du 2%nat)
    + U 2%nat * (M 0%nat 2%nat * du 0%nat + M 1%nat 2%nat * du 1%nat + M 2%nat 2%nat * du 2%nat)
    = du 0%nat * (lam * U 0%nat) + du 1%nat * (lam * U 1%nat) + du 2%nat * (lam * U 2%nat)).
  { rewrite <- E0, <- E1, <- E2. ring. }
  set (A0 := M 0%nat 0%nat * du 0%nat + M 0%nat 1%nat * du 1%nat + M 0%nat 2%nat * du 2%nat) in *.
  set (A1 := M 0%nat 1%nat * du 0%nat + M 1%nat 1%nat * du 1%nat + M 1%nat 2%nat * du 2%nat) in *.
  set (A2 := M 0%nat 2%nat * du 0%nat + M 1%nat 2%nat * du 1%nat + M 2%nat 2%nat * du 2%nat) in *.
  set (B0 := G b 0%nat 0%nat * U 0%nat + G b 0%nat 1%nat * U 1%nat + G b 0%nat 2%nat * U 2%nat) in *.
  set (B1 := G b 1%nat 0%nat * U 0%nat + G b 1%nat 1%nat * U 1%nat + G b 1%nat 2%nat * U 2%nat) in *.
  set (B2 := G b 2%nat 0%nat * U 0%nat + G b 2%nat 1%nat * U 1%nat + G b 2%nat 2%nat * U 2%nat) in *.
  replace dl with (dl * (U 0%nat * U 0%nat + U 1%nat * U 1%nat + U 2%nat * U 2%nat)) by (rewrite N; ring).
  replace B0 with (dl * U 0%nat + lam * du 0%nat - A0) by lra.
  replace B1 with (dl * U 1%nat + lam * du 1%nat - A1) by lra.
  replace B2 with (dl * U 2%nat + lam * du 2%nat - A2) by lra.
  replace (U 0%nat * (dl * U 0%nat + lam * du 0%nat - A0) + U 1%nat * (dl * U 1%nat + lam * du 1%nat - A1) + U 2%nat * (dl * U 2%nat + lam * du 2%nat - A2))
    with (dl * (U 0%nat * U 0%nat + U 1%nat * U 1%nat + U 2%nat * U 2%nat) + (du 0%nat * (lam * U 0%nat) + du 1%nat * (lam * U 1%nat) + du 2%nat * (lam * U 2%nat))
          - (U 0%nat * A0 + U 1%nat * A1 + U 2%nat * A2)) by ring.
  rewrite X. ring.
Qed.
(** First-order change of the polarisation. *)
Lemma polarisation P : inverts_off U (fun i k => lam * (if (i =? k)%nat then 1 else 0) - M i k) P ->
  forall m, (m < 3)%nat -> du m = apply3 P (apply3 (G b) U) m.
Proof.
  intros (PA & PU & _) m Hm. set (A := fun i k => lam * (if (i =? k)%nat then 1 else 0) - M i k) in *.
  assert (Q : forall i, (i < 3)%nat -> apply3 (G b) U i = apply3 A du i + dl * U i).
  { intros i Hi. pose proof (differentiated i Hi) as DI.
    assert (AI : apply3 A du i = lam * du i - apply3 M du i).
    { unfold apply3, sum_3, A. destruct i as [|[|[|i]]]; [| | |exfalso; lia]; cbn [Nat.eqb]; ring. }
    rewrite AI. lra. }
  transitivity (apply3 P (apply3 A du) m + dl * apply3 P U m).
  - rewrite PA, PU, du_orthogonal by exact Hm. ring.
  - unfold apply3 at 1 3 4, sum_3. rewrite !Q by lia. ring.
Qed.
End Mode.

(** ** C74 *)
Section C74.
Variable T : tensor4.
Hypothesis SYM : symmetric_christoffel T.
Variable d : vec.
Variables (lam : nat -> R) (ev : nat -> vec) (n : nat).
Let g := group d (phase lam) ev (gradient T d).

Theorem C74_eigenvalue_gradient b l u dl du : (b < 3)%nat ->
  smooth_mode T d b l u dl du -> u (d b) = ev n -> is_derive l (d b) (g_eig g n b).
Proof.
  intros Hb SM EU. pose proof (hellmann_feynman T SYM d b Hb l u dl du SM) as Q. rewrite EU in Q.
  unfold g, group; cbn [g_eig]. rewrite <- Q. apply SM.
Qed.
(** The group velocity is the gradient of the phase velocity. *)
Theorem C74_group_velocity b l u dl du : (b < 3)%nat ->
  smooth_mode T d b l u dl du -> l (d b) = lam n -> u (d b) = ev n -> 0 < lam n ->
  is_derive (fun t => phase (fun _ => l t) n) (d b) (g_vel g n b).
Proof.
  intros Hb SM EL EU POS.
  pose proof (C74_eigenvalue_gradient b l u dl du Hb SM EU) as D.
  assert (CL : locally (d b) (fun t => 0 < l t)).
  { assert (CO : continuous l (d b)).
    { apply (ex_derive_continuous (V := R_NormedModule)). eexists; exact D. }
    apply (CO (fun y => 0 < y)). rewrite EL. apply (open_gt 0 (lam n) POS). }
  apply (is_derive_ext_loc (fun t => sqrt (l t))).
  - revert CL. apply filter_imp. intros t Ht. unfold phase, sign. destruct (Rlt_dec 0 (l t)); [|contradiction].
    rewrite Rabs_right by (left; assumption). symmetry. apply Rmult_1_l.
  - pose proof (phase_pos lam n POS) as [PH PP].
    assert (SD : is_derive sqrt (l (d b)) (/ (2 * sqrt (l (d b))))).
    { rewrite EL. apply is_derive_Reals, derivable_pt_lim_sqrt. exact POS. }
    eapply derive_eq; [apply (is_derive_comp sqrt l (d b) _ _ SD D)|].
    unfold scal; simpl; unfold mult; simpl. unfold g, group; cbn [g_vel g_eig].
    rewrite PH, EL. unfold Rdiv. ring.
Qed.

Variable pinv : mat3 -> mat3.
Let A := fun i k => lam n * (if (i =? k)%nat then 1 else 0) - christoffel T d i k.
Let H := hessian_eigen pinv (hessian_christoffel_matrix T) (christoffel T d) (gradient T d) lam ev.
Lemma off_line b l u dl du : (b < 3)%nat -> smooth_mode T d b l u dl du -> l (d b) = lam n -> u (d b) = ev n ->
  simple_eigenvalue (christoffel T d) (lam n) (ev n) -> moore_penrose A (pinv A) -> inverts_off (ev n) A (pinv A).
Proof.
  intros Hb SM EL EU SI MP. destruct (pair_here T d b Hb l u dl du SM) as [E N]. rewrite EU, EL in *.
  assert (AW : forall w i, (i < 3)%nat -> apply3 A w i = lam n * w i - apply3 (christoffel T d) w i).
  { intros w i Hi. unfold apply3, sum_3, A. destruct i as [|[|[|i]]]; [| | |exfalso; lia]; cbn [Nat.eqb]; ring. }
  apply penrose_inverts_off; [|exact MP|exact N| |].
  - intros i k Hi Hk. unfold tr, A. rewrite (SYM d i k Hi Hk), Nat.eqb_sym. reflexivity.
  - intros i Hi. rewrite AW, E by exact Hi. ring.
  - intros w Z. apply SI. intros i Hi. specialize (Z i Hi). rewrite AW in Z by exact Hi. lra.
Qed.
(** gradient array at the displaced direction *)
Definition gradient_along (b : nat) (u : R -> vec) (a : nat) (t : R) : R :=
  sum3 (fun k => u t k * sum3 (fun m => gradient T (upd d b t) a k m * u t m)).
Theorem C74_eigenvalue_hessian a b l u dl du : (a < 3)%nat -> (b < 3)%nat ->
  smooth_mode T d b l u dl du -> l (d b) = lam n -> u (d b) = ev n ->
  simple_eigenvalue (christoffel T d) (lam n) (ev n) -> moore_penrose A (pinv A) ->
  is_derive (gradient_along b u a) (d b) (H n a b).
Proof.
  intros Ha Hb SM EL EU SI MP. pose proof (off_line b l u dl du Hb SM EL EU SI MP) as IP.
  assert (PO : forall m, (m < 3)%nat -> du m = apply3 (pinv A) (apply3 (gradient T d b) (ev n)) m).
  { rewrite <- EU. apply (polarisation T d b Hb l u dl du SM). rewrite EU, EL. exact IP. }
  pose proof (gradient_symmetric T SYM d a) as GS.
  destruct SM as [_ _ DU]. unfold gradient_along.
  eapply derive_eq.
  - apply derive_sum3. intros k Hk. apply derive_mult; [apply DU; exact Hk|].
    apply (derive_sum3 (fun m t => gradient T (upd d b t) a k m * u t m) (d b)
      (fun m => hessian_christoffel_matrix T b a k m * u (d b) m + gradient T (upd d b (d b)) a k m * du m)).
    intros m Hm. apply derive_mult; [apply C49_hessian; assumption|apply DU; exact Hm].
  - rewrite EU. unfold H, hessian_eigen. fold A.
    assert (W : forall m, (m < 3)%nat -> sum3 (fun i => sum3 (fun l => gradient T d a i l * ev n l) * pinv A i m) =
                apply3 (pinv A) (apply3 (gradient T d a) (ev n)) m).
    { intros m Hm. unfold apply3, sum_3, sum3. destruct IP as (_ & _ & PS).
      rewrite (PS m 0%nat), (PS m 1%nat), (PS m 2%nat) by lia. ring. }
    assert (V : sum3 (fun m => sum3 (fun i => sum3 (fun l => gradient T d a i l * ev n l) * pinv A i m) *
                 sum3 (fun l => gradient T d b m l * ev n l)) =
                du 0%nat * apply3 (gradient T d a) (ev n) 0 + du 1%nat * apply3 (gradient T d a) (ev n) 1 + du 2%nat * apply3 (gradient T d a) (ev n) 2).
    { unfold sum3 at 1. rewrite !W by lia. rewrite !PO by lia. destruct IP as (_ & _ & PS).
      unfold apply3, sum_3, sum3. rewrite (PS 1 0)%nat, (PS 2 0)%nat, (PS 2 1)%nat by lia. ring. }
    rewrite V. unfold apply3, sum_3, sum3.
    rewrite !(fun i k => proj2 (upd_same d b i k T Hb) a). rewrite EU.
    rewrite (GS 1%nat 0%nat), (GS 2%nat 0%nat), (GS 2%nat 1%nat) by lia.
    unfold hessian_christoffel_matrix. realeq. ring.
Qed.
Lemma hessian_symmetric a b : (a < 3)%nat -> (b < 3)%nat -> inverts_off (ev n) A (pinv A) -> H n a b = H n b a.
Proof.
  intros Ha Hb (_ & _ & PS). unfold H, hessian_eigen. fold A. unfold hessian_christoffel_matrix, sum3.
  rewrite (PS 1%nat 0%nat), (PS 2%nat 0%nat), (PS 2%nat 1%nat) by lia. ring.
Qed.

(** The array inverted for the enhancement factor is the Jacobian of the group
    (ray) direction with respect to the wave vector. *)
Lemma unit_derivative (e : nat -> R -> R) x e' a : (a < 3)%nat ->
  (forall c, (c < 3)%nat -> is_derive (e c) x (e' c)) -> norm (fun c => e c x) <> 0 ->
  is_derive (fun t => e a t / norm (fun c => e c t)) x
    (e' a / norm (fun c => e c x) - e a x * sum3 (fun c => e' c * e c x) / norm (fun c => e c x) ^ 3).
Proof.
  intros Ha DE NZ. set (N := norm (fun c => e c x)) in *.
  assert (NP : 0 < N) by (pose proof (norm_nonneg (fun c => e c x)); fold N in H0; lra).
  assert (SQ : N * N = sum3 (fun c => e c x * e c x)).
  { unfold N, norm. apply sqrt_sqrt. unfold sum3. nra. }
  assert (DS : is_derive (fun t => sum3 (fun c => e c t * e c t)) x (sum3 (fun c => e' c * e c x + e c x * e' c))).
  { apply derive_sum3. intros c Hc. apply derive_mult; apply DE; exact Hc. }
  assert (DN : is_derive (fun t => norm (fun c => e c t)) x (sum3 (fun c => e' c * e c x) / N)).
  { unfold norm.
    assert (P : 0 < sum3 (fun c => e c x * e c x)) by nra.
    eapply derive_eq; [apply (is_derive_comp sqrt (fun t => sum3 (fun c => e c t * e c t)) x (/ (2 * N)) (sum3 (fun c => e' c * e c x + e c x * e' c)));
      [|exact DS]|].
    - unfold N, norm. apply is_derive_Reals, derivable_pt_lim_sqrt. exact P.
    - unfold scal; simpl; unfold mult; simpl. unfold sum3. realeq. field. lra. }
  eapply derive_eq; [apply (is_derive_div (e a) (fun t => norm (fun c => e c t)) x _ _ (DE a Ha) DN); exact NZ|].
  unfold minus, plus, opp, scal, mult; simpl. unfold mult; simpl. fold N. realeq. field. lra.
Qed.
Theorem C74_ray_direction a b l u dl du : (a < 3)%nat -> (b < 3)%nat ->
  smooth_mode T d b l u dl du -> l (d b) = lam n -> u (d b) = ev n -> 0 < lam n ->
  simple_eigenvalue (christoffel T d) (lam n) (ev n) -> moore_penrose A (pinv A) -> 0 < g_abs g n ->
  is_derive (fun t => gradient_along b u a t / norm (fun c => gradient_along b u c t)) (d b)
    (direction_gradient H (phase lam) (g_abs g) (g_vel g) n a b) /\
  gradient_along b u a (d b) / norm (fun c => gradient_along b u c (d b)) = g_dir g n a.
Proof.
  intros Ha Hb SM EL EU POS SI MP GP. pose proof (off_line b l u dl du Hb SM EL EU SI MP) as IP. destruct (phase_pos lam n POS) as [PH PP].
  assert (E0 : forall c, gradient_along b u c (d b) = 2 * phase lam n * g_vel g n c).
  { intros c. unfold gradient_along. rewrite EU. unfold g, group; cbn [g_vel].
    unfold sum3. rewrite !(fun i k => proj2 (upd_same d b i k T Hb) c). field. lra. }
  assert (NN : norm (fun c => gradient_along b u c (d b)) = 2 * phase lam n * g_abs g n).
  { change (g_abs g n) with (norm (g_vel g n)). unfold norm.
    replace (sum3 (fun i => gradient_along b u i (d b) * gradient_along b u i (d b)))
      with ((2 * phase lam n) * (2 * phase lam n) * sum3 (fun i => g_vel g n i * g_vel g n i)) by (unfold sum3; rewrite !E0; ring).
    rewrite sqrt_mult_alt by nra. rewrite sqrt_square by lra. reflexivity. }
  split.
  - eapply derive_eq.
    + apply (unit_derivative (gradient_along b u) (d b) (fun c => H n c b) a Ha).
      * intros c Hc. apply (C74_eigenvalue_hessian c b l u dl du); assumption.
      * rewrite NN. nra.
    + rewrite NN, E0. unfold direction_gradient, sum3. rewrite !E0.
      rewrite (hessian_symmetric 0 b), (hessian_symmetric 1 b), (hessian_symmetric 2 b) by (assumption || lia).
      realeq. field. split; lra.
  - rewrite NN, E0. change (g_dir g n a) with (g_vel g n a / g_abs g n). field. split; lra.
Qed.
End C74.

(** ** The enhancement factor is the ratio of the solid angles *)
Definition cross (p q : vec) : vec := fun i => match i with
  | 0%nat => p 1%nat * q 2%nat - p 2%nat * q 1%nat
  | 1%nat => p 2%nat * q 0%nat - p 0%nat * q 2%nat
  | _ => p 0%nat * q 1%nat - p 1%nat * q 0%nat
  end.
(** A small parallelogram of wave vectors, of sides p and q perpendicular to the
    direction d (cross p q = s d), goes to the parallelogram of rays of sides J p
    and J q, where J is the Jacobian of the ray direction (C74_ray_direction). The
    factor is the ratio of the first area to the second. *)
Theorem C74_enhancement inv d hess pvel gabs gvel n p q s :
  let J := direction_gradient hess pvel gabs gvel n in
  inverts inv J -> (forall i, (i < 3)%nat -> cross p q i = s * d i) -> 0 < s -> dot d d = 1 ->
  norm (cross (apply3 J p) (apply3 J q)) <> 0 ->
  enhancement_of inv d hess pvel gabs gvel n = norm (cross p q) / norm (cross (apply3 J p) (apply3 J q)).
Proof.
  intros J I C S0 U NZ. unfold enhancement_of. fold J. set (w := fun a => sum3 (fun b => cofactor inv J a b * d b)).
  assert (W : forall a, (a < 3)%nat -> cross (apply3 J p) (apply3 J q) a = s * w a).
  { intros a Ha. assert (E : s * w a = sum3 (fun b => cofactor_textbook J a b * cross p q b)).
    { unfold w, sum3. rewrite !C54_textbook, !C by (assumption || lia). ring. }
    rewrite E. unfold sum3, cross, cofactor_textbook, minor, apply3, sum_3. destruct a as [|[|[|a]]]; [| | |lia]; cbn [Nat.eqb Nat.add pow]; ring. }
  assert (NS : forall v v', (forall i, (i < 3)%nat -> v i = s * v' i) -> norm v = s * norm v').
  { intros v v' V. unfold norm. replace (sum3 (fun i => v i * v i)) with (s * s * sum3 (fun i => v' i * v' i)) by (unfold sum3; rewrite !V by lia; ring).
    rewrite sqrt_mult_alt by nra. rewrite sqrt_square by lra. reflexivity. }
  rewrite (NS _ _ W) in *. rewrite (NS _ _ C).
  assert (N1 : norm d = 1) by (unfold norm; change (sqrt (dot d d) = 1); rewrite U; apply sqrt_1).
  rewrite N1. field. split; [intros Z; apply NZ; rewrite Z; ring|lra].
Qed.
(** Rays that spread twice as much as the wave vectors in both directions: 1/4. *)
Example C74_enhancement_instance : let hess : ten3 := fun _ a b => if (a =? b)%nat then 4 else 0 in
  let inv : mat3 -> mat3 := fun A => A in
  let up : vec := fun i => match i with 2%nat => 1 | _ => 0 end in
  enhancement_of inv up hess (fun _ => 1) (fun _ => 1) (fun _ => up) 0%nat = 1 / 4.
Proof.
  intros hess inv up. set (X := (fun i => match i with 0%nat => 1 | _ => 0 end) : vec). set (Y := (fun i => match i with 1%nat => 1 | _ => 0 end) : vec).
  assert (Jv : forall a b, (a < 3)%nat -> (b < 3)%nat -> direction_gradient hess (fun _ => 1) (fun _ => 1) (fun _ => up) 0 a b = if (a =? b)%nat then (if (a =? 2)%nat then 0 else 2) else 0).
  { intros a b Ha Hb. unfold direction_gradient, hess, up, sum3. destruct a as [|[|[|a]]]; [| | |lia]; (destruct b as [|[|[|b]]]; [| | |lia]); cbn [Nat.eqb]; field. }
  assert (CR : forall i, (i < 3)%nat -> cross (apply3 (direction_gradient hess (fun _ => 1) (fun _ => 1) (fun _ => up) 0) X) (apply3 (direction_gradient hess (fun _ => 1) (fun _ => 1) (fun _ => up) 0) Y) i = 4 * up i).
  { intros i Hi. unfold cross, apply3, sum_3. rewrite !Jv by lia. unfold X, Y, up. destruct i as [|[|[|i]]]; [| | |lia]; cbn [Nat.eqb]; ring. }
  assert (NN : norm (cross (apply3 (direction_gradient hess (fun _ => 1) (fun _ => 1) (fun _ => up) 0) X) (apply3 (direction_gradient hess (fun _ => 1) (fun _ => 1) (fun _ => up) 0) Y)) = 4).
  { unfold norm, sum3. rewrite !CR by lia. unfold up. replace (4 * 0 * (4 * 0) + 4 * 0 * (4 * 0) + 4 * 1 * (4 * 1)) with (4 * 4) by ring. apply sqrt_square. lra. }
  rewrite (C74_enhancement inv up hess (fun _ => 1) (fun _ => 1) (fun _ => up) 0%nat X Y 1).
  - rewrite NN. f_equal. unfold norm, sum3, cross, X, Y. replace (_ + _ + _) with 1 by ring. apply sqrt_1.
  - intros NZ. exfalso. apply NZ. unfold det. rewrite !Jv by lia. cbn [Nat.eqb]. ring.
  - intros i Hi. unfold cross, X, Y, up. destruct i as [|[|[|i]]]; [| | |lia]; ring.
  - lra.
  - unfold dot, up. ring.
  - rewrite NN. lra.
Qed.

Print Assumptions C74_eigenvalue_gradient.
Print Assumptions C74_group_velocity.
Print Assumptions C74_eigenvalue_hessian.
Print Assumptions C74_ray_direction.
Print Assumptions C74_enhancement.
