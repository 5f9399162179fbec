(** Least-squares polynomial fits: uniqueness, linearity, exactness on
    polynomials, existence. They turn the contract of
    np.polynomial.polynomial.polyfit (normal equations) into what the QHA
    schemes need. *)
From Coq Require Import Reals List Arith Lia Lra.
From Verif Require Import StatMechModel ThermoProps PolyModel PolyProps.
Import ListNotations.
Open Scope R_scope.

Definition distinct (n : nat) (X : nat -> R) : Prop :=
  forall i j, (i < n)%nat -> (j < n)%nat -> X i = X j -> i = j.

(** ** A polynomial of degree below n vanishing at n distinct points is zero *)
Lemma power_difference x a m : x ^ S m - a ^ S m = (x - a) * poly (fun k => a ^ (m - k)) (S m) x.
Proof.
  induction m as [|m IH]; [unfold poly; simpl; ring|].
  replace (x ^ S (S m) - a ^ S (S m)) with ((x - a) * x ^ S m + a * (x ^ S m - a ^ S m)) by (simpl; ring).
  rewrite IH. unfold poly at 2. cbn [psum]. fold (poly (fun k => a ^ (S m - k)) (S m) x).
  rewrite Nat.sub_diag.
  assert (E : poly (fun k => a ^ (S m - k)) (S m) x = a * poly (fun k => a ^ (m - k)) (S m) x).
  { unfold poly. rewrite <- psum_scal. apply psum_ext. intros k Hk. replace (S m - k)%nat with (S (m - k)) by lia. simpl. ring. }
  change (psum (fun k => a ^ (S m - k) * x ^ k) m + a ^ (S m - m) * x ^ m) with (poly (fun k => a ^ (S m - k)) (S m) x).
  rewrite E. simpl. ring.
Qed.
Lemma division c a : forall m, exists q, forall x, poly c (S m) x = poly c (S m) a + (x - a) * poly q m x.
Proof.
  induction m as [|m [q IH]].
  - exists (fun _ => 0). intros x. unfold poly. simpl. ring.
  - exists (fun k => (if (k <? m)%nat then q k else 0) + c (S m) * a ^ (m - k)). intros x.
    unfold poly at 1 2. cbn [psum]. fold (poly c (S m) x) (poly c (S m) a).
    change (psum (fun k => c k * x ^ k) m + c m * x ^ m) with (poly c (S m) x).
    change (psum (fun k => c k * a ^ k) m + c m * a ^ m) with (poly c (S m) a).
    assert (E : poly (fun k => (if (k <? m)%nat then q k else 0) + c (S m) * a ^ (m - k)) (S m) x =
                poly q m x + c (S m) * poly (fun k => a ^ (m - k)) (S m) x).
    { unfold poly. rewrite <- psum_scal.
      rewrite (psum_ext _ (fun k => (if (k <? m)%nat then q k else 0) * x ^ k + c (S m) * (a ^ (m - k) * x ^ k))) by (intros; ring).
      rewrite psum_plus. f_equal. cbn [psum]. rewrite Nat.ltb_irrefl, Rmult_0_l, Rplus_0_r.
      apply psum_ext. intros k Hk. apply Nat.ltb_lt in Hk. now rewrite Hk. }
    rewrite E, IH. pose proof (power_difference x a m) as P.
    replace (c (S m) * x ^ S m) with (c (S m) * a ^ S m + c (S m) * (x ^ S m - a ^ S m)) by ring.
    rewrite P. ring.
Qed.
Lemma vanishing_polynomial : forall m c X, distinct m X -> (forall j, (j < m)%nat -> poly c m (X j) = 0) ->
  forall x, poly c m x = 0.
Proof.
  induction m as [|m IH]; intros c X D V x; [reflexivity|].
  destruct (division c (X m) m) as [q Q]. rewrite Q, V by lia.
  rewrite (IH q X); [ring| |].
  - intros i j Hi Hj. apply D; lia.
  - intros j Hj. pose proof (V j ltac:(lia)) as Vj. rewrite Q, (V m) in Vj by lia.
    rewrite Rplus_0_l in Vj. apply Rmult_integral in Vj as [Z|Z]; [|exact Z].
    assert (j = m) by (apply D; lia || lra). lia.
Qed.
Lemma poly_lin a b c d n x : poly (fun k => a * c k + b * d k) n x = a * poly c n x + b * poly d n x.
Proof. unfold poly. rewrite <- !psum_scal, <- psum_plus. apply psum_ext. intros; ring. Qed.
Lemma vanishing_long c m n X : distinct n X -> (m <= n)%nat -> (forall j, (j < n)%nat -> poly c m (X j) = 0) ->
  forall x, poly c m x = 0.
Proof. intros D L V. apply vanishing_polynomial with X; [intros i j Hi Hj; apply D; lia|intros; apply V; lia]. Qed.

(** ** Uniqueness and its consequences *)
Lemma combination_least_squares a b c d m X Y Z W n :
  (forall j, (j < n)%nat -> W j = a * Y j + b * Z j) ->
  least_squares c m X Y n -> least_squares d m X Z n ->
  least_squares (fun k => a * c k + b * d k) m X W n.
Proof.
  intros E LY LZ k Hk.
  rewrite (psum_ext _ (fun j => a * ((Y j - poly c m (X j)) * X j ^ k) + b * ((Z j - poly d m (X j)) * X j ^ k))).
  - rewrite psum_plus, !psum_scal, LY, LZ by auto. ring.
  - intros j Hj. rewrite poly_lin, E by auto. ring.
Qed.
Lemma least_squares_unique c d m X Y n :
  distinct n X -> (m <= n)%nat -> least_squares c m X Y n -> least_squares d m X Y n ->
  forall x, poly c m x = poly d m x.
Proof.
  intros D L LC LD x.
  pose proof (combination_least_squares 1 (-1) c d m X Y Y (fun _ => 0) n ltac:(intros; cbv beta; ring) LC LD) as Z.
  set (e := fun k => 1 * c k + -1 * d k) in *.
  pose proof (residual_orthogonal e m e m X (fun _ => 0) n Z (le_n _)) as O.
  assert (V : forall j, (j < n)%nat -> poly e m (X j) = 0).
  { intros j Hj.
    assert (P : psum (fun j => poly e m (X j) * poly e m (X j)) n = 0).
    { rewrite (psum_ext _ (fun j => (-1) * ((0 - poly e m (X j)) * poly e m (X j)))) by (intros; ring).
      rewrite psum_scal. cbv beta in O. rewrite O. ring. }
    pose proof (psum_zero _ _ ltac:(intros; cbv beta; apply Rle_0_sqr) P j Hj) as Q. cbv beta in Q.
    apply Rmult_integral in Q as [Q|Q]; exact Q. }
  pose proof (vanishing_long e m n X D L V x) as F. unfold e in F. rewrite poly_lin in F. lra.
Qed.

(** ** The contract of np.polynomial.polynomial.polyfit *)
Definition fit_function := nat -> (nat -> R) -> (nat -> R) -> nat -> list R.
Definition least_squares_solver (fit : fit_function) : Prop :=
  forall n X Y d, distinct n X -> (d < n)%nat ->
  List.length (fit n X Y d) = S d /\ least_squares (fun k => nth k (fit n X Y d) 0) (S d) X Y n.

Section Solver.
Variable fit : fit_function.
Hypothesis solver : least_squares_solver fit.
Lemma fit_poly n X Y d x : distinct n X -> (d < n)%nat ->
  polyval x (fit n X Y d) = poly (fun k => nth k (fit n X Y d) 0) (S d) x.
Proof. intros D L. destruct (solver n X Y d D L) as [E _]. now rewrite polyval_poly, E. Qed.
Lemma fit_linear n X Y Z W d a b x :
  distinct n X -> (d < n)%nat -> (forall j, (j < n)%nat -> W j = a * Y j + b * Z j) ->
  polyval x (fit n X W d) = a * polyval x (fit n X Y d) + b * polyval x (fit n X Z d).
Proof.
  intros D L E. rewrite !fit_poly by auto. rewrite <- poly_lin.
  apply least_squares_unique with X W n; auto; [apply solver; auto|].
  apply combination_least_squares with Y Z; auto; apply solver; auto.
Qed.
Lemma fit_ext n X Y W d x : distinct n X -> (d < n)%nat -> (forall j, (j < n)%nat -> W j = Y j) ->
  polyval x (fit n X W d) = polyval x (fit n X Y d).
Proof.
  intros D L E. rewrite (fit_linear n X Y Y W d 1 0) by (auto; intros; rewrite E by auto; ring). ring.
Qed.
Lemma poly_as_polyval c m x : (List.length c <= m)%nat -> poly (fun k => nth k c 0) m x = polyval x c.
Proof.
  intros L. rewrite polyval_poly. unfold poly. induction L as [|m L IH]; [reflexivity|].
  cbn [psum]. rewrite IH, nth_overflow by auto. ring.
Qed.
(** A polynomial of degree at most d is returned unchanged. *)
Lemma fit_exact n X Y d c x :
  distinct n X -> (d < n)%nat -> (List.length c <= S d)%nat ->
  (forall j, (j < n)%nat -> Y j = polyval (X j) c) -> polyval x (fit n X Y d) = polyval x c.
Proof.
  intros D L LC E. rewrite fit_poly by auto. rewrite <- (poly_as_polyval c (S d)) by auto.
  apply least_squares_unique with X Y n; auto; [apply solver; auto|].
  intros k Hk. rewrite (psum_ext _ (fun _ => 0)); [apply psum_0|].
  intros j Hj. rewrite poly_as_polyval, E by auto. ring.
Qed.
End Solver.

(** ** Existence: the contract is satisfiable *)
Fixpoint project (n : nat) (X : nat -> R) (m : nat) (Y : nat -> R) : nat -> R :=
  match m with
  | 0%nat => fun _ => 0
  | S m =>
      let p := project n X m Y in
      let r := project n X m (fun j => X j ^ m) in
      let q j := X j ^ m - poly r m (X j) in
      let a := psum (fun j => Y j * q j) n / psum (fun j => q j * q j) n in
      fun k => if (k <? m)%nat then p k - a * r k else if (k =? m)%nat then a else 0
  end.
Lemma project_least_squares n X : forall m Y, least_squares (project n X m Y) m X Y n.
Proof.
  induction m as [|m IH]; intros Y k Hk; [lia|].
  cbn [project]. set (p := project n X m Y). set (r := project n X m (fun j => X j ^ m)).
  set (q := fun j => X j ^ m - poly r m (X j)).
  set (a := psum (fun j => Y j * q j) n / psum (fun j => q j * q j) n).
  set (c := fun k => if (k <? m)%nat then p k - a * r k else if (k =? m)%nat then a else 0).
  change (psum (fun j => (Y j - poly c (S m) (X j)) * X j ^ k) n = 0).
  assert (C : forall x, poly c (S m) x = poly p m x + a * (x ^ m - poly r m x)).
  { intros x. unfold poly at 1. cbn [psum].
    assert (CM : c m = a) by (unfold c; now rewrite Nat.ltb_irrefl, Nat.eqb_refl). rewrite CM.
    rewrite (psum_ext _ (fun k => p k * x ^ k + (- a) * (r k * x ^ k))).
    - rewrite psum_plus, psum_scal. unfold poly. ring.
    - intros j Hj. unfold c. apply Nat.ltb_lt in Hj. rewrite Hj. ring. }
  assert (LP : least_squares p m X Y n) by apply IH.
  assert (LR : least_squares r m X (fun j => X j ^ m) n) by apply IH.
  assert (LOW : forall k, (k < m)%nat -> psum (fun j => (Y j - poly c (S m) (X j)) * X j ^ k) n = 0).
  { intros i Hi.
    rewrite (psum_ext _ (fun j => (Y j - poly p m (X j)) * X j ^ i + (- a) * ((X j ^ m - poly r m (X j)) * X j ^ i))).
    - rewrite psum_plus, psum_scal, LP by auto. pose proof (LR i Hi) as Q. cbv beta in Q. rewrite Q. ring.
    - intros j _. rewrite C. ring. }
  destruct (Nat.eq_dec k m) as [->|Ne]; [|apply LOW; lia].
  assert (ORT : psum (fun j => (Y j - poly c (S m) (X j)) * poly r m (X j)) n = 0).
  { assert (G : forall i, (i <= m)%nat -> psum (fun j => (Y j - poly c (S m) (X j)) * poly r i (X j)) n = 0).
    { induction i as [|i IHi]; intros Hi.
      - rewrite (psum_ext _ (fun _ => 0)); [apply psum_0|]. intros. change (poly r 0 (X j)) with 0. ring.
      - rewrite (psum_ext _ (fun j => (Y j - poly c (S m) (X j)) * poly r i (X j) + r i * ((Y j - poly c (S m) (X j)) * X j ^ i))).
        + rewrite psum_plus, psum_scal, IHi, LOW by lia. ring.
        + intros j _. change (poly r (S i) (X j)) with (poly r i (X j) + r i * X j ^ i). ring. }
    apply G; lia. }
  assert (QO : psum (fun j => q j * poly p m (X j)) n = 0) by exact (residual_orthogonal p m r m X _ n LR (le_n _)).
  assert (MAIN : psum (fun j => (Y j - poly c (S m) (X j)) * q j) n = 0).
  { rewrite (psum_ext _ (fun j => Y j * q j + ((-1) * (q j * poly p m (X j)) + (- a) * (q j * q j)))).
    - rewrite !psum_plus, !psum_scal, QO.
      destruct (Req_dec (psum (fun j => q j * q j) n) 0) as [Z|NZ].
      + assert (QZ : forall j, (j < n)%nat -> q j = 0).
        { intros j Hj. pose proof (psum_zero (fun j => q j * q j) n ltac:(intros; cbv beta; apply Rle_0_sqr) Z j Hj) as W.
          cbv beta in W. apply Rmult_integral in W as [W|W]; exact W. }
        rewrite Z, (psum_ext _ (fun _ => 0)); [rewrite psum_0; ring|]. intros j Hj. rewrite QZ by auto. ring.
      + unfold a. field. exact NZ.
    - intros j _. rewrite C. fold (q j). ring. }
  rewrite (psum_ext _ (fun j => (Y j - poly c (S m) (X j)) * q j + (Y j - poly c (S m) (X j)) * poly r m (X j))).
  - rewrite psum_plus, MAIN, ORT. ring.
  - intros j _. unfold q. ring.
Qed.
Definition gram_schmidt_fit : fit_function := fun n X Y d => map (project n X (S d) Y) (seq 0 (S d)).
Lemma gram_schmidt_solver : least_squares_solver gram_schmidt_fit.
Proof.
  intros n X Y d _ _. unfold gram_schmidt_fit. rewrite map_length, seq_length. split; [reflexivity|].
  assert (E : forall k, (k < S d)%nat -> nth k (map (project n X (S d) Y) (seq 0 (S d))) 0 = project n X (S d) Y k).
  { intros k Hk. rewrite nth_indep with (d' := project n X (S d) Y 0) by (rewrite map_length, seq_length; auto).
    rewrite map_nth, seq_nth by auto. reflexivity. }
  intros k Hk. etransitivity; [|exact (project_least_squares n X (S d) Y k Hk)]. apply psum_ext. intros j Hj.
  assert (PE : forall x, poly (fun k => nth k (map (project n X (S d) Y) (seq 0 (S d))) 0) (S d) x = poly (project n X (S d) Y) (S d) x).
  { intros x. unfold poly. apply psum_ext. intros i Hi. rewrite (E i Hi). reflexivity. }
  rewrite PE. reflexivity.
Qed.
