(** Property C103: the energies at enough volumes determine the parameters of an
    equation of state. *)
From Coq Require Import Reals String List Lra Lia Bool Arith Psatz.
From Coquelicot Require Import Coquelicot.
From Verif Require Import PolyModel PolyProps PolyfitProofs PvEosProofs PvEosProps EvEosModel QhaRunModel ReportModel GuessModel GuessProps.
From Verif Require PvEosModel EvEosProps.
Import ListNotations.
Open Scope string_scope.
Open Scope list_scope.
Open Scope R_scope.

(** ** Specification *)
Record parameters := { e0 : R; k0 : R; k1 : R; v0 : R }.
Definition physical (p : parameters) : Prop := 0 < k0 p /\ 0 < v0 p.
(** Where the formula divides by K' or K' - 1. *)
Definition defined (tag : string) (p : parameters) : Prop :=
  (tag = "murnaghan" -> k1 p <> 0 /\ k1 p <> 1) /\ (tag = "vinet" -> k1 p <> 1).
(** How many volumes are enough. *)
Definition enough (tag : string) : nat := if String.eqb tag "vinet" then 5 else 4.
Definition energy (form : ev_form) (p : parameters) (V : R) : R := form V (e0 p) (k0 p) (k1 p) (v0 p).

(** ** Zeros *)
(** [l] lists increasing zeros of [f], all above [a]. *)
Fixpoint zeros_from (a : R) (f : R -> R) (l : list R) : Prop :=
  match l with [] => True | x :: r => a < x /\ f x = 0 /\ zeros_from x f r end.
Lemma zeros_below a b f l : b <= a -> zeros_from a f l -> zeros_from b f l.
Proof. destruct l; cbn; intuition lra. Qed.
Lemma zeros_ext a f g l : (forall x, a < x -> f x = g x) -> zeros_from a f l -> zeros_from a g l.
Proof.
  revert a. induction l as [|x l IH]; intros a H; cbn; [auto|]. intros (A & B & C). repeat split; auto; [rewrite <- H; auto|].
  apply IH; auto. intros y Y. apply H. lra.
Qed.
Lemma rolle f f' (a b : R) : a < b -> (forall x, a <= x <= b -> is_derive f x (f' x)) -> f a = 0 -> f b = 0 -> exists c, a < c < b /\ f' c = 0.
Proof.
  intros AB D A B. destruct (MVT_cor2 f f' a b AB) as (c & M & C).
  - intros x X. apply is_derive_Reals. auto.
  - exists c. split; [exact C|]. rewrite A, B in M. assert (Q : f' c * (b - a) = 0) by lra. apply Rmult_integral in Q as [|]; lra.
Qed.
Lemma rolle_list f f' a : (forall x, a < x -> is_derive f x (f' x)) -> forall l x, a < x -> f x = 0 -> zeros_from x f l ->
  exists l', List.length l' = List.length l /\ zeros_from x f' l'.
Proof.
  intros D. induction l as [|y l IH]; intros x X Z ZF; [exists []; now split|]. destruct ZF as (A & B & C).
  destruct (rolle f f' x y A) as (c & CC & FC); auto; [intros z Hz; apply D; lra|].
  destruct (IH y) as (l' & L & Q); auto; [lra|]. exists (c :: l'). split; [cbn; now rewrite L|].
  cbn. repeat split; [lra|exact FC|]. apply zeros_below with y; [lra|exact Q].
Qed.
Lemma rolle_zeros f f' a l : (forall x, a < x -> is_derive f x (f' x)) -> zeros_from a f l ->
  exists l', List.length l' = pred (List.length l) /\ zeros_from a f' l'.
Proof.
  intros D Z. destruct l as [|x l]; [exists []; now split|]. destruct Z as (A & B & C).
  destruct (rolle_list f f' a D l x A B C) as (l' & L & Q). exists l'. split; [exact L|]. apply zeros_below with x; [lra|exact Q].
Qed.
(** Different numbers can be listed in increasing order. *)
Fixpoint insert (x : R) (l : list R) : list R :=
  match l with [] => [x] | y :: r => if Rle_dec x y then x :: y :: r else y :: insert x r end.
Lemma insert_in x l y : In y (insert x l) <-> y = x \/ In y l.
Proof. induction l as [|z l IH]; cbn; [intuition|]. destruct (Rle_dec x z); cbn; [intuition|]. rewrite IH. intuition. Qed.
Lemma insert_length x l : List.length (insert x l) = S (List.length l).
Proof. induction l; cbn; [reflexivity|]. destruct (Rle_dec x a); cbn; auto. Qed.
Lemma insert_zeros f x l : forall a, a < x -> f x = 0 -> ~ In x l -> zeros_from a f l -> zeros_from a f (insert x l).
Proof.
  induction l as [|y l IH]; intros a A F N Z; cbn; [auto|]. destruct Z as (Z1 & Z2 & Z3). destruct (Rle_dec x y) as [Q|Q]; cbn.
  - assert (x <> y) by (intros ->; apply N; now left). repeat split; auto. lra.
  - repeat split; auto. apply IH; auto; [lra|]. intros I. apply N. now right.
Qed.
Lemma sorted_zeros a f l : NoDup l -> (forall x, In x l -> a < x /\ f x = 0) -> exists l', List.length l' = List.length l /\ zeros_from a f l'.
Proof.
  intros ND H. enough (Q : exists l', List.length l' = List.length l /\ (forall y, In y l' <-> In y l) /\ zeros_from a f l') by (destruct Q as (l' & A & _ & B); eauto).
  induction ND as [|x l N ND IH]; [exists []; repeat split; auto|].
  destruct IH as (l' & L & I & Z); [intros; apply H; now right|]. destruct (H x (or_introl eq_refl)) as (X & FX).
  exists (insert x l'). rewrite insert_length, L. split; [reflexivity|]. split.
  - intros y. rewrite insert_in, I. cbn. intuition.
  - apply insert_zeros; auto. now rewrite I.
Qed.
Lemma enough_zeros a f l n : NoDup l -> (forall x, In x l -> a < x /\ f x = 0) -> (n <= List.length l)%nat -> exists l', (n <= List.length l')%nat /\ zeros_from a f l'.
Proof. intros A B C. destruct (sorted_zeros a f l A B) as (l' & L & Z). exists l'. rewrite L. auto. Qed.

(** ** Cubics with a minimum *)
Lemma cubics A1 B1 C1 y1 A2 B2 C2 y2 : 0 < B1 -> 0 < B2 ->
  (forall y, A1 * (y - y1) ^ 3 + B1 * (y - y1) ^ 2 + C1 = A2 * (y - y2) ^ 3 + B2 * (y - y2) ^ 2 + C2) -> y1 = y2 /\ A1 = A2 /\ B1 = B2 /\ C1 = C2.
Proof.
  intros P1 P2 H. set (d := y1 - y2).
  assert (G : forall h, A1 * h ^ 3 + B1 * h ^ 2 + C1 = A2 * (h + d) ^ 3 + B2 * (h + d) ^ 2 + C2).
  { intros h. pose proof (H (y1 + h)) as Q. replace (y1 + h - y1) with h in Q by ring. replace (y1 + h - y2) with (h + d) in Q by (unfold d; ring). exact Q. }
  pose proof (G 0) as G0. pose proof (G 1) as G1. pose proof (G (-1)) as G2. pose proof (G 2) as G3. ring_simplify in G0. ring_simplify in G1. ring_simplify in G2. ring_simplify in G3.
  assert (EA : A1 = A2) by lra. assert (EB : B1 = 3 * A2 * d + B2) by lra. assert (EC : d * (3 * A2 * d + 2 * B2) = 0) by (ring_simplify; lra).
  assert (D : d = 0). { apply Rmult_integral in EC as [|Q]; [assumption|]. lra. }
  rewrite D in *. unfold d in D. repeat split; lra.
Qed.
(** Four common values are enough. *)
Lemma cubics_at A1 B1 C1 y1 A2 B2 C2 y2 l : 0 < B1 -> 0 < B2 -> NoDup l -> (4 <= List.length l)%nat ->
  (forall y, In y l -> A1 * (y - y1) ^ 3 + B1 * (y - y1) ^ 2 + C1 = A2 * (y - y2) ^ 3 + B2 * (y - y2) ^ 2 + C2) -> y1 = y2 /\ A1 = A2 /\ B1 = B2 /\ C1 = C2.
Proof.
  intros P1 P2 ND L H. apply cubics; auto. intros y.
  set (co := fun A B C z (k : nat) => nth k [C + B * z ^ 2 - A * z ^ 3; 3 * A * z ^ 2 - 2 * B * z; B - 3 * A * z; A] 0).
  assert (PC : forall A B C z x, poly (co A B C z) 4 x = A * (x - z) ^ 3 + B * (x - z) ^ 2 + C) by (intros; unfold co, poly; cbn; ring).
  pose proof (vanishing_polynomial 4 (fun k => 1 * co A1 B1 C1 y1 k + (-1) * co A2 B2 C2 y2 k) (fun j => nth j l 0)) as Q.
  rewrite <- !PC. enough (Z : poly (fun k => 1 * co A1 B1 C1 y1 k + (-1) * co A2 B2 C2 y2 k) 4 y = 0).
  { rewrite (poly_lin 1 (-1) (co A1 B1 C1 y1) (co A2 B2 C2 y2)) in Z. lra. }
  apply Q.
  - intros i j Hi Hj E. apply NoDup_nth in E; auto; lia.
  - intros j Hj. rewrite (poly_lin 1 (-1) (co A1 B1 C1 y1) (co A2 B2 C2 y2)), !PC, H; [ring|]. apply nth_In. lia.
Qed.

(** ** The four forms *)
Lemma map_distinct (f : R -> R) l : (forall x y, In x l -> In y l -> f x = f y -> x = y) -> NoDup l -> NoDup (map f l).
Proof.
  intros J. induction 1 as [|x l N ND IH]; cbn; constructor.
  - intros I. apply in_map_iff in I as (y & E & I). apply N. rewrite (J x y); [exact I|now left|now right|now symmetry].
  - apply IH. intros; apply J; auto; now right.
Qed.
Lemma ln_ratio a b : 0 < a -> 0 < b -> ln (a / b) = ln a - ln b.
Proof. intros. unfold Rdiv. rewrite ln_mult, ln_Rinv; try assumption; [ring|now apply Rinv_0_lt_compat]. Qed.
Lemma exp_injective a b : exp a = exp b -> a = b.
Proof. apply exp_inv. Qed.

(** Poirier-Tarantola is a cubic in ln V. *)
Lemma pt_cubic p V : 0 < v0 p -> 0 < V ->
  energy ev_pouriertarantola p V = - (k0 p * v0 p / 6 * (k1 p - 2)) * (ln V - ln (v0 p)) ^ 3 + k0 p * v0 p / 2 * (ln V - ln (v0 p)) ^ 2 + e0 p.
Proof. intros A B. unfold energy, ev_pouriertarantola, Rpower. rewrite ln_exp, ln_ratio by assumption. field. Qed.
Lemma pt_unique p q l : physical p -> physical q -> NoDup l -> (4 <= List.length l)%nat ->
  (forall V, In V l -> 0 < V /\ energy ev_pouriertarantola p V = energy ev_pouriertarantola q V) -> p = q.
Proof.
  intros (Kp & Vp) (Kq & Vq) ND L H.
  destruct (cubics_at (- (k0 p * v0 p / 6 * (k1 p - 2))) (k0 p * v0 p / 2) (e0 p) (ln (v0 p)) (- (k0 q * v0 q / 6 * (k1 q - 2))) (k0 q * v0 q / 2) (e0 q) (ln (v0 q)) (map ln l)) as (E1 & E2 & E3 & E4); try nra.
  - apply map_distinct; [|assumption]. intros x y X Y. apply ln_inv; now apply H.
  - now rewrite map_length.
  - intros y Y. apply in_map_iff in Y as (V & <- & I). destruct (H V I) as (PV & E). rewrite !pt_cubic in E by assumption. exact E.
  - apply ln_inv in E1; [|assumption|assumption]. destruct p as [ep kp k1p vp], q as [eq kq k1q vq]. cbn in *. subst vq eq.
    assert (kp = kq) by (apply Rmult_eq_reg_r with vp; lra). subst kq.
    assert (k1p = k1q) by (apply Rmult_eq_reg_l with (kp * vp); nra). now subst.
Qed.

(** Birch-Murnaghan is a cubic in V^(-2/3). *)
Definition bm_a (p : parameters) : R := exp (2 / 3 * ln (v0 p)).
Lemma bm_cubic p V : 0 < v0 p -> 0 < V ->
  energy ev_birchmurnaghan p V = 9 * k0 p * v0 p / 16 * (k1 p - 4) * bm_a p ^ 3 * (exp (- (2 / 3) * ln V) - / bm_a p) ^ 3
    + 9 * k0 p * v0 p / 8 * bm_a p ^ 2 * (exp (- (2 / 3) * ln V) - / bm_a p) ^ 2 + e0 p.
Proof.
  intros A B. unfold energy, ev_birchmurnaghan, Rpower. rewrite ln_ratio by assumption.
  assert (Q : exp (1 / 3 * (ln (v0 p) - ln V)) ^ 2 = bm_a p * exp (- (2 / 3) * ln V)).
  { unfold bm_a. rewrite <- exp_plus. cbn [pow]. rewrite Rmult_1_r, <- exp_plus. f_equal. field. }
  rewrite Q. pose proof (exp_pos (2 / 3 * ln (v0 p))) as HP. fold (bm_a p) in HP. set (y := exp (- (2 / 3) * ln V)). set (a := bm_a p) in *. field. lra.
Qed.
Lemma bm_unique p q l : physical p -> physical q -> NoDup l -> (4 <= List.length l)%nat ->
  (forall V, In V l -> 0 < V /\ energy ev_birchmurnaghan p V = energy ev_birchmurnaghan q V) -> p = q.
Proof.
  intros (Kp & Vp) (Kq & Vq) ND L H.
  assert (HP : forall r, 0 < bm_a r) by (intros; apply exp_pos). pose proof (HP p) as Pp. pose proof (HP q) as Pq.
  assert (SQ : forall r, 0 < k0 r -> 0 < v0 r -> 0 < 9 * k0 r * v0 r / 8 * bm_a r ^ 2).
  { intros r X Y. apply Rmult_lt_0_compat; [nra|]. apply pow_lt. apply HP. }
  destruct (cubics_at (9 * k0 p * v0 p / 16 * (k1 p - 4) * bm_a p ^ 3) (9 * k0 p * v0 p / 8 * bm_a p ^ 2) (e0 p) (/ bm_a p)
    (9 * k0 q * v0 q / 16 * (k1 q - 4) * bm_a q ^ 3) (9 * k0 q * v0 q / 8 * bm_a q ^ 2) (e0 q) (/ bm_a q) (map (fun V => exp (- (2 / 3) * ln V)) l)) as (E1 & E2 & E3 & E4); auto.
  - apply map_distinct; [|assumption]. intros x y X Y Q. apply exp_injective in Q. apply ln_inv; try (now apply H). lra.
  - now rewrite map_length.
  - intros y Y. apply in_map_iff in Y as (V & <- & I). destruct (H V I) as (PV & E). rewrite !bm_cubic in E by assumption. exact E.
  - assert (EA : bm_a p = bm_a q) by (rewrite <- (Rinv_inv (bm_a p)), E1; apply Rinv_inv).
    assert (EV : v0 p = v0 q). { unfold bm_a in EA. apply exp_injective in EA. apply ln_inv; auto. lra. }
    rewrite <- EA in *. destruct p as [ep kp k1p vp], q as [eq kq k1q vq]. cbn in *. subst vq eq. set (a := bm_a _) in *.
    assert (A2 : 0 < a ^ 2) by (apply pow_lt; assumption). assert (A3 : 0 < a ^ 3) by (apply pow_lt; assumption).
    apply Rmult_eq_reg_r in E3; [|lra]. assert (kp = kq) by (apply Rmult_eq_reg_r with vp; lra). subst kq.
    apply Rmult_eq_reg_r in E2; [|lra]. assert (k1p = k1q) by (apply Rmult_eq_reg_l with (kp * vp); nra). now subst.
Qed.

(** Murnaghan: the second derivative of the difference vanishes at two volumes. *)
Lemma m_second k k' v V : k' <> 0 -> 0 < v -> 0 < V ->
  is_derive (fun V => - murnaghan_textbook k k' v V) V (k * exp (k' * ln v - (k' + 1) * ln V)).
Proof.
  intros K A B. apply is_derive_ext_loc with (f := fun V => - (k / k' * (exp (k' * (ln v - ln V)) - 1))).
  - generalize (locally_pos V B). apply filter_imp. intros y Y. unfold murnaghan_textbook, Rpower. rewrite ln_ratio by assumption. reflexivity.
  - auto_derive; [exact B|]. replace (k' * ln v - (k' + 1) * ln V) with (k' * (ln v - ln V) + - ln V) by ring. rewrite exp_plus, exp_Ropp, exp_ln by assumption. unfold Rminus. set (x := exp _). field. lra.
Qed.
Lemma m_unique p q l : physical p -> physical q -> defined "murnaghan" p -> defined "murnaghan" q -> NoDup l -> (4 <= List.length l)%nat ->
  (forall V, In V l -> 0 < V /\ energy ev_murnaghan p V = energy ev_murnaghan q V) -> p = q.
Proof.
  intros (Kp & Vp) (Kq & Vq) (Dp & _) (Dq & _) ND L H. destruct (Dp eq_refl) as (Dp0 & Dp1). destruct (Dq eq_refl) as (Dq0 & Dq1). clear Dp Dq.
  destruct (enough_zeros 0 (fun V => energy ev_murnaghan p V - energy ev_murnaghan q V) l 4 ND) as (l0 & L0 & Z0); [intros V I; destruct (H V I); split; lra|assumption|].
  set (f1 := fun V => - murnaghan_textbook (k0 p) (k1 p) (v0 p) V - - murnaghan_textbook (k0 q) (k1 q) (v0 q) V).
  destruct (rolle_zeros (fun V => energy ev_murnaghan p V - energy ev_murnaghan q V) f1 0 l0) as (l1 & L1 & Z1).
  { intros V PV. apply (is_derive_minus (V := R_NormedModule)); apply EvEosProps.murnaghan_derive; assumption. }
  { exact Z0. }
  set (f2 := fun V => k0 p * exp (k1 p * ln (v0 p) - (k1 p + 1) * ln V) - k0 q * exp (k1 q * ln (v0 q) - (k1 q + 1) * ln V)).
  destruct (rolle_zeros f1 f2 0 l1) as (l2 & L2 & Z2).
  { intros V PV. apply (is_derive_minus (V := R_NormedModule)); apply m_second; assumption. }
  { exact Z1. }
  destruct l2 as [|x [|y l2]]; cbn in L2; try lia. cbn [zeros_from] in Z2. destruct Z2 as (X & FX & XY & FY & _).
  assert (LG : forall V, f2 V = 0 -> ln (k0 p) + (k1 p * ln (v0 p) - (k1 p + 1) * ln V) = ln (k0 q) + (k1 q * ln (v0 q) - (k1 q + 1) * ln V)).
  { intros V F. unfold f2 in F. rewrite <- (ln_exp (k1 p * _ - _)), <- (ln_exp (k1 q * _ - _)), <- !ln_mult by (assumption || apply exp_pos). f_equal. lra. }
  pose proof (LG x FX) as LX. pose proof (LG y FY) as LY. clear FX FY LG.
  assert (LL : ln x < ln y) by (apply ln_increasing; lra).
  assert (K : k1 p = k1 q). { apply Rmult_eq_reg_r with (ln y - ln x); lra. }
  destruct l1 as [|z l1]; cbn in L1; try lia. destruct Z1 as (PZ & F1 & _).
  assert (GG : ln (k0 p) + k1 p * ln (v0 p) = ln (k0 q) + k1 q * ln (v0 q)) by (rewrite K in *; lra).
  assert (EG : k0 p * exp (k1 p * ln (v0 p)) = k0 q * exp (k1 q * ln (v0 q))).
  { rewrite <- (exp_ln (k0 p)), <- (exp_ln (k0 q)), <- !exp_plus by assumption. now f_equal. }
  assert (EK : k0 p = k0 q).
  { unfold f1, murnaghan_textbook, Rpower in F1. rewrite !ln_ratio in F1 by assumption. rewrite <- K in F1, EG.
    assert (SP : forall v, exp (k1 p * (ln v - ln z)) = exp (k1 p * ln v) * exp (- (k1 p * ln z))) by (intros; rewrite <- exp_plus; f_equal; ring).
    rewrite !SP in F1. set (w := exp (- (k1 p * ln z))) in *.
    assert (Q : k0 p / k1 p * (exp (k1 p * ln (v0 p)) * w) = k0 q / k1 p * (exp (k1 p * ln (v0 q)) * w)).
    { replace (k0 p / k1 p * (exp (k1 p * ln (v0 p)) * w)) with (k0 p * exp (k1 p * ln (v0 p)) * w / k1 p) by (field; assumption). rewrite EG. field. assumption. }
    assert (Q2 : k0 p / k1 p = k0 q / k1 p) by lra. apply Rmult_eq_reg_r with (/ k1 p); [exact Q2|]. now apply Rinv_neq_0_compat. }
  assert (EV : v0 p = v0 q). { apply ln_inv; auto. apply Rmult_eq_reg_l with (k1 p); [|assumption]. rewrite EK, <- K in GG. lra. }
  destruct l as [|V l']; cbn in L; [lia|]. destruct (H V (or_introl eq_refl)) as (_ & E). unfold energy, ev_murnaghan in E. rewrite <- K, <- EK, <- EV in E.
  destruct p, q. cbn in *. subst. f_equal. lra.
Qed.

(** Vinet, in t = V^(1/3): dE/dt = G (t - w) exp (-c (t - w)). *)
Definition vw (p : parameters) : R := exp (1 / 3 * ln (v0 p)).
Definition vc (p : parameters) : R := 3 * (k1 p - 1) / (2 * vw p).
Definition vA (p : parameters) : R := 2 * k0 p * v0 p / (k1 p - 1) ^ 2.
Definition vcurve (p : parameters) (t : R) : R := e0 p + 2 * vA p - 2 * vA p * (1 + vc p * (t - vw p)) * exp (- vc p * (t - vw p)).
Lemma vinet_curve p V : 0 < v0 p -> 0 < V -> k1 p <> 1 -> energy ev_vinet p V = vcurve p (exp (1 / 3 * ln V)).
Proof.
  intros A B K. unfold energy, ev_vinet, vcurve, Rpower. rewrite ln_ratio by assumption. pose proof (exp_pos (1 / 3 * ln (v0 p))) as HP. fold (vw p) in HP.
  assert (Q : exp (1 / 3 * (ln V - ln (v0 p))) = exp (1 / 3 * ln V) / vw p).
  { unfold vw, Rdiv. rewrite <- exp_Ropp, <- exp_plus. f_equal. field. }
  rewrite Q. set (t := exp (1 / 3 * ln V)). replace (-3 * (k1 p - 1) * (t / vw p - 1) / 2) with (- vc p * (t - vw p)) by (unfold vc; field; lra).
  unfold vA. set (x := exp (- vc p * (t - vw p))). unfold vc. field. split; lra.
Qed.
Definition vG (p : parameters) : R := 2 * vA p * vc p ^ 2.
Lemma vcurve_derive p t : is_derive (vcurve p) t (vG p * (t - vw p) * exp (- vc p * (t - vw p))).
Proof. unfold vcurve, vG. auto_derive; [exact I|]. unfold Rminus. ring. Qed.
Lemma vinet_unique p q l : physical p -> physical q -> defined "vinet" p -> defined "vinet" q -> NoDup l -> (5 <= List.length l)%nat ->
  (forall V, In V l -> 0 < V /\ energy ev_vinet p V = energy ev_vinet q V) -> p = q.
Proof.
  intros (Kp & Vp) (Kq & Vq) (_ & Dp) (_ & Dq) ND L H. specialize (Dp eq_refl). specialize (Dq eq_refl).
  assert (HW : forall r, 0 < vw r) by (intros; apply exp_pos).
  assert (HA : forall r, 0 < k0 r -> 0 < v0 r -> k1 r <> 1 -> 0 < vA r).
  { intros r X Y Z. unfold vA. apply Rmult_lt_0_compat; [nra|]. apply Rinv_0_lt_compat. assert (k1 r - 1 <> 0) by lra. nra. }
  assert (HC : forall r, k1 r <> 1 -> vc r <> 0).
  { intros r Z. unfold vc, Rdiv. apply Rmult_integral_contrapositive_currified; [lra|]. apply Rinv_neq_0_compat. pose proof (HW r). lra. }
  assert (HG : forall r, 0 < k0 r -> 0 < v0 r -> k1 r <> 1 -> 0 < vG r).
  { intros r X Y Z. unfold vG. pose proof (HA r X Y Z). pose proof (HC r Z). assert (0 < vc r ^ 2) by nra. nra. }
  set (root := fun V => exp (1 / 3 * ln V)).
  destruct (enough_zeros 0 (fun t => vcurve p t - vcurve q t) (map root l) 5) as (l0 & L0 & Z0).
  { apply map_distinct; [|assumption]. intros x y X Y Q. apply exp_injective in Q. apply ln_inv; try (now apply H). lra. }
  { intros t T. apply in_map_iff in T as (V & <- & I). destruct (H V I) as (PV & E). split; [apply exp_pos|].
    rewrite !vinet_curve in E by assumption. unfold root. lra. }
  { now rewrite map_length. }
  destruct (rolle_zeros (fun t => vcurve p t - vcurve q t) (fun t => vG p * (t - vw p) * exp (- vc p * (t - vw p)) - vG q * (t - vw q) * exp (- vc q * (t - vw q))) 0 l0) as (l1 & L1 & Z1).
  { intros t _. apply (is_derive_minus (V := R_NormedModule)); apply vcurve_derive. }
  { exact Z0. }
  set (s := vc p - vc q). set (H1 := vG p * exp (vc p * vw p)). set (H2 := vG q * exp (vc q * vw q)).
  set (h := fun t => H1 * (t - vw p) * exp (- s * t) - H2 * (t - vw q)).
  assert (Zh : zeros_from 0 h l1).
  { assert (G : forall f g, (forall x, f x = 0 -> g x = 0) -> forall a l, zeros_from a f l -> zeros_from a g l).
    { intros f g FG a m. revert a. induction m; cbn; intuition. }
    revert Z1. apply G. intros t F. unfold h, H1, H2, s.
    replace (- (vc p - vc q) * t) with (- vc p * t + vc q * t) by ring. rewrite exp_plus.
    replace (- vc p * (t - vw p)) with (- vc p * t + vc p * vw p) in F by ring. replace (- vc q * (t - vw q)) with (- (vc q * t) + vc q * vw q) in F by ring.
    rewrite !exp_plus, (exp_Ropp (vc q * t)) in F. pose proof (exp_pos (vc q * t)) as PE.
    apply Rmult_eq_reg_r with (/ exp (vc q * t)); [|apply Rinv_neq_0_compat; lra]. rewrite Rmult_0_l. rewrite <- F. field. lra. }
  assert (PH1 : 0 < H1) by (apply Rmult_lt_0_compat; [auto|apply exp_pos]). assert (PH2 : 0 < H2) by (apply Rmult_lt_0_compat; [auto|apply exp_pos]).
  assert (S0 : s = 0).
  { destruct (Req_dec s 0) as [|NS]; [assumption|]. exfalso.
    destruct (rolle_zeros h (fun t => H1 * (1 - s * (t - vw p)) * exp (- s * t) - H2) 0 l1) as (l2 & L2 & Z2).
    { intros t _. unfold h. auto_derive; [exact I|]. unfold Rminus. ring. }
    { exact Zh. }
    destruct (rolle_zeros (fun t => H1 * (1 - s * (t - vw p)) * exp (- s * t) - H2) (fun t => H1 * s * (s * (t - vw p) - 2) * exp (- s * t)) 0 l2) as (l3 & L3 & Z3).
    { intros t _. auto_derive; [exact I|]. unfold Rminus. ring. }
    { exact Z2. }
    destruct l3 as [|x [|y l3]]; cbn in L3; try lia. cbn [zeros_from] in Z3. destruct Z3 as (_ & FX & XY & FY & _).
    assert (R0 : forall t, H1 * s * (s * (t - vw p) - 2) * exp (- s * t) = 0 -> s * (t - vw p) - 2 = 0).
    { intros t Q. pose proof (exp_pos (- s * t)) as PE. apply Rmult_integral in Q as [Q|Q]; [|lra]. apply Rmult_integral in Q as [Q|Q]; [|assumption]. apply Rmult_integral in Q as [Q|Q]; [lra|contradiction]. }
    apply R0 in FX. apply R0 in FY. assert (s * (x - y) = 0) by lra. apply Rmult_integral in H0 as [|]; [contradiction|lra]. }
  destruct l1 as [|x [|y l1]]; cbn in L1; try lia. cbn [zeros_from] in Zh. destruct Zh as (_ & FX & XY & FY & _).
  unfold h in FX, FY. rewrite S0, Ropp_0, !Rmult_0_l, exp_0 in FX, FY.
  assert (EH : H1 = H2) by (apply Rmult_eq_reg_r with (y - x); lra).
  assert (EW : vw p = vw q) by (rewrite EH in FX; apply Rmult_eq_reg_l with H2; lra).
  assert (ECc : vc p = vc q) by (unfold s in S0; lra).
  assert (EGg : vG p = vG q).
  { unfold H1, H2 in EH. rewrite <- ECc, <- EW in EH. apply Rmult_eq_reg_r in EH; [exact EH|]. pose proof (exp_pos (vc p * vw p)). lra. }
  assert (EV : v0 p = v0 q). { unfold vw in EW. apply exp_injective in EW. apply ln_inv; auto. lra. }
  assert (EK1 : k1 p = k1 q).
  { unfold vc in ECc. rewrite <- EW in ECc. pose proof (HW p). apply Rmult_eq_reg_r in ECc; [lra|]. apply Rinv_neq_0_compat. lra. }
  assert (EA : vA p = vA q). { unfold vG in EGg. rewrite <- ECc in EGg. assert (0 < vc p ^ 2) by (pose proof (HC p Dp); nra). apply Rmult_eq_reg_r in EGg; lra. }
  assert (EK : k0 p = k0 q).
  { unfold vA in EA. rewrite <- EV, <- EK1 in EA. apply Rmult_eq_reg_r in EA; [|apply Rinv_neq_0_compat; assert (k1 p - 1 <> 0) by lra; nra]. apply Rmult_eq_reg_r with (v0 p); lra. }
  destruct l as [|V l']; cbn in L; [lia|]. destruct (H V (or_introl eq_refl)) as (_ & E). unfold energy, ev_vinet in E. rewrite <- EK1, <- EK, <- EV in E. cbv zeta in E.
  destruct p, q. cbn in *. subst. f_equal. lra.
Qed.

(** ** The property *)
(** Two sets of parameters with the same energies at enough volumes are the same. *)
Theorem C103_determined tag form p q Vs :
  set_eos_type tag = Some form -> physical p -> physical q -> defined tag p -> defined tag q ->
  NoDup Vs -> (enough tag <= List.length Vs)%nat ->
  (forall V, In V Vs -> 0 < V /\ energy form p V = energy form q V) -> p = q.
Proof.
  unfold set_eos_type, enough. intros T Pp Pq Dp Dq ND L H.
  destruct (String.eqb_spec tag "murnaghan") as [->|]; [injection T as <-; now apply m_unique with Vs|].
  destruct (String.eqb_spec tag "birchmurnaghan") as [->|]; [injection T as <-; now apply bm_unique with Vs|].
  destruct (String.eqb_spec tag "vinet") as [->|]; [injection T as <-; now apply vinet_unique with Vs|].
  destruct (String.eqb_spec tag "pouriertarantola") as [->|]; [injection T as <-; now apply pt_unique with Vs|]. discriminate.
Qed.
(** Three volumes are not enough. *)
Theorem C103_three_refuted :
  exists p q Vs, p <> q /\ physical p /\ physical q /\ NoDup Vs /\ List.length Vs = 3%nat /\
    forall V, In V Vs -> 0 < V /\ energy ev_pouriertarantola p V = energy ev_pouriertarantola q V.
Proof.
  exists {| e0 := 0; k0 := 2; k1 := 2; v0 := 1 |}, {| e0 := -5 / 4; k0 := 14 * exp (- (1 / 2)); k1 := 2 / 7; v0 := exp (1 / 2) |}, [exp (-1); exp 0; exp 1].
  pose proof (exp_pos (1 / 2)). pose proof (exp_pos (- (1 / 2))).
  assert (I : exp (- (1 / 2)) * exp (1 / 2) = 1) by (rewrite <- exp_plus; replace (- (1 / 2) + 1 / 2) with 0 by field; apply exp_0).
  split; [intros E; injection E as E; lra|]. split; [split; cbn; lra|]. split; [split; cbn; lra|]. split; [|split; [reflexivity|]].
  - repeat constructor; cbn; intros Q; repeat destruct Q as [Q|Q]; try contradiction; apply exp_injective in Q; lra.
  - assert (G : forall x, (x = -1 \/ x = 0 \/ x = 1) -> energy ev_pouriertarantola {| e0 := 0; k0 := 2; k1 := 2; v0 := 1 |} (exp x) =
      energy ev_pouriertarantola {| e0 := -5 / 4; k0 := 14 * exp (- (1 / 2)); k1 := 2 / 7; v0 := exp (1 / 2) |} (exp x)).
    { intros x X. rewrite !pt_cubic by (cbn; try lra; apply exp_pos). cbn [e0 k0 k1 v0]. rewrite !ln_exp, ln_1, Rmult_assoc, I.
      destruct X as [->|[->| ->]]; field. }
    intros V [<-|[<-|[<-|[]]]]; (split; [apply exp_pos|]); apply G; auto.
Qed.

(** ** The fit *)
(** Energies computed from an equation of state: when the fitted curve goes through
    them, the fit returns its parameters. *)
Definition curve_fitter := ev_form -> nat -> (nat -> R) -> (nat -> R) -> R * R * R * R -> outcome ((R * R * R * R) * (shown * shown * shown * shown)).
Definition goes_through (curve_fit : curve_fitter) (tag : string) (n : nat) (V E : nat -> R) : Prop :=
  forall form start found errors, set_eos_type tag = Some form -> curve_fit form n V E start = Ok (found, errors) ->
  exists q, found = (e0 q, k0 q, k1 q, v0 q) /\ physical q /\ defined tag q /\ forall j, (j < n)%nat -> E j = energy form q (V j).
Theorem C103_recovered np_polyfit roots curve_fit tag form n V E p found errors :
  goes_through curve_fit tag n V E -> set_eos_type tag = Some form -> physical p -> defined tag p ->
  distinct n V -> (enough tag <= n)%nat -> (forall j, (j < n)%nat -> 0 < V j /\ E j = energy form p (V j)) ->
  ev_fit np_polyfit roots curve_fit tag n V E = Ok (found, errors) -> found = (e0 p, k0 p, k1 p, v0 p).
Proof.
  intros EX T Pp Dp D L H F. unfold ev_fit in F. destruct (ev_guess np_polyfit roots n V E) as [start|]; [|discriminate]. cbn [bind] in F. rewrite T in F.
  destruct (curve_fit form n V E start) as [[fo [[[c1 c2] c3] c4]]|] eqn:CF; [|discriminate]. cbn [bind] in F. injection F as <- <-.
  destruct (EX form start fo (c1, c2, c3, c4) T CF) as (q & -> & Pq & Dq & HQ).
  assert (Q : p = q); [|now subst].
  apply (C103_determined tag form p q (map V (seq 0 n))); auto.
  - assert (ND : forall m s, (s + m <= n)%nat -> NoDup (map V (seq s m))).
    { induction m; intros s Hs; cbn; constructor.
      - intros I. apply in_map_iff in I as (j & EJ & I). apply in_seq in I. assert (j = s) by (apply D; auto; lia). lia.
      - apply IHm. lia. }
    apply ND. lia.
  - now rewrite map_length, seq_length.
  - intros v I. apply in_map_iff in I as (j & <- & I). apply in_seq in I. destruct (H j) as (A & B); [lia|]. split; [exact A|]. rewrite <- B. apply HQ. lia.
Qed.

(** ** Instances *)
(** Periclase: five volumes, K0 = 160, K' = 4.1, V0 = 75. *)
Definition periclase : parameters := {| e0 := -10; k0 := 160; k1 := 41 / 10; v0 := 75 |}.
Example C103_instance tag : In tag ["murnaghan"; "birchmurnaghan"; "vinet"; "pouriertarantola"] ->
  physical periclase /\ defined tag periclase /\ NoDup [65; 70; 75; 80; 85] /\ (enough tag <= 5)%nat.
Proof.
  intros I. split; [split; cbn; lra|]. split; [split; intros _; cbn; lra|]. split.
  - repeat constructor; cbn; intros Q; repeat destruct Q as [Q|Q]; try contradiction; lra.
  - repeat destruct I as [<-|I]; try contradiction; cbn; lia.
Qed.
(** Energies of periclase at these volumes, and a routine which finds its curve. *)
Definition periclase_cell (j : nat) : R := 65 + 5 * INR j.
Example C103_fit_instance tag form : set_eos_type tag = Some form ->
  let found : curve_fitter := fun _ _ _ _ _ => Ok ((-10, 160, 41 / 10, 75), (Fin 0, Fin 0, Fin 0, Fin 0)) in
  goes_through found tag 5 periclase_cell (fun j => energy form periclase (periclase_cell j)) /\ distinct 5 periclase_cell /\ (forall j, 0 < periclase_cell j).
Proof.
  intros T found. split; [|split].
  - intros form' start fo er T' Q. injection Q as <- <-. exists periclase. rewrite T in T'. injection T' as <-.
    split; [reflexivity|]. split; [split; cbn; lra|]. split; [split; intros _; cbn; lra|]. reflexivity.
  - intros i j _ _ Q. unfold periclase_cell in Q. apply INR_eq. lra.
  - intros j. unfold periclase_cell. pose proof (pos_INR j). lra.
Qed.

Print Assumptions C103_determined.
Print Assumptions C103_three_refuted.
Print Assumptions C103_recovered.
