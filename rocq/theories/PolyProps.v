(** Properties C23, C24, C25, C66. *)
From Coq Require Import Reals List Lra Lia Bool Arith Psatz.
From Coquelicot Require Import Coquelicot.
From Verif Require Import ParModel ParProofs StatMechModel ThermoModel PolyModel.
Import ListNotations.
Open Scope R_scope.

(** ** Specification: a polynomial is the sum of its monomials. *)
Fixpoint psum (f : nat -> R) (n : nat) : R := match n with O => 0 | S n => psum f n + f n end.
Definition poly (c : nat -> R) (nc : nat) (x : R) : R := psum (fun j => c j * x ^ j) nc.

Lemma psum_ext f g n : (forall j, (j < n)%nat -> f j = g j) -> psum f n = psum g n.
Proof. induction n; simpl; intros E; [reflexivity|]. rewrite IHn, E by auto. reflexivity. Qed.
Lemma psum_plus f g n : psum (fun j => f j + g j) n = psum f n + psum g n.
Proof. induction n; simpl; [ring|]. rewrite IHn. ring. Qed.
Lemma psum_scal a f n : psum (fun j => a * f j) n = a * psum f n.
Proof. induction n; simpl; [ring|]. rewrite IHn. ring. Qed.
Lemma psum_shift f n : psum f (S n) = f 0%nat + psum (fun j => f (S j)) n.
Proof. induction n; simpl; [ring|]. simpl in IHn. rewrite IHn. ring. Qed.

(** Effect of accumulating operations on their row. *)
Definition value_at (k : nat) (o : op R) : R :=
  match o with AddTo _ c v => if (c =? k)%nat then v else 0 | SetTo _ _ _ => 0 end.
Lemma exec_adds l : forall (m : memory R) i k,
  (forall o, In o l -> exists c v, o = AddTo i c v) ->
  exec Rplus l m i k = m i k + fold_right Rplus 0 (map (value_at k) l).
Proof.
  induction l as [|o l IH]; intros m i k A; simpl; [ring|].
  destruct (A o (or_introl eq_refl)) as (c & v & ->).
  rewrite IH by (intros; apply A; now right). unfold write. rewrite Nat.eqb_refl. cbn [andb value_at].
  rewrite (Nat.eqb_sym k c). destruct (Nat.eqb_spec c k); [subst; ring|ring].
Qed.
Lemma fold_app l l' : fold_right Rplus 0 (l ++ l') = fold_right Rplus 0 l + fold_right Rplus 0 l'.
Proof. induction l; simpl; [ring|rewrite IHl; ring]. Qed.
Lemma fold_map_seq f n : fold_right Rplus 0 (map f (seq 0 n)) = psum f n.
Proof.
  induction n; [reflexivity|]. rewrite seq_S, map_app, fold_app, IHn. simpl. ring.
Qed.
Lemma fold_flat_map {A} (f : A -> list R) l :
  fold_right Rplus 0 (flat_map f l) = fold_right Rplus 0 (map (fun a => fold_right Rplus 0 (f a)) l).
Proof. induction l; simpl; [reflexivity|]. now rewrite fold_app, IHl. Qed.
Lemma map_flat_map {A B C} (g : B -> C) (f : A -> list B) l : map g (flat_map f l) = flat_map (fun a => map g (f a)) l.
Proof. induction l; simpl; [reflexivity|]. now rewrite map_app, IHl. Qed.

Lemma single_column k f n : psum (fun j => if (j =? k)%nat then f j else 0) n = if (k <? n)%nat then f k else 0.
Proof.
  induction n; simpl; [reflexivity|]. rewrite IHn.
  destruct (Nat.eqb_spec n k); destruct (Nat.ltb_spec k n), (Nat.ltb_spec k (S n)); subst; try lia; try ring.
Qed.

Lemma interp_row_adds nc nx X c i o : In o (interp_row nc nx X c i) -> exists c' v, o = AddTo i c' v.
Proof.
  unfold interp_row. intros I. apply in_flat_map in I as (j & _ & I). apply in_map_iff in I as (k & <- & _). eauto.
Qed.
Lemma adds_row i (o : op R) : (exists c v, o = AddTo i c v) -> row R o = i.
Proof. intros (c & v & ->). reflexivity. Qed.

Lemma interp_value nv nc nx X c i k : (i < nv)%nat -> (k < nx)%nat ->
  multi_interpolate_array nv nc nx X c i k = poly (c i) nc (X k).
Proof.
  intros Hi Hk. unfold multi_interpolate_array.
  rewrite exec_seq_row by (auto; intros; eapply adds_row, interp_row_adds; eauto).
  rewrite exec_adds by (intros; eapply interp_row_adds; eauto). unfold interp_row.
  rewrite map_flat_map, fold_flat_map. change (zeros i k) with 0. rewrite Rplus_0_l.
  rewrite (map_ext _ (fun j => c i j * X k ^ j)).
  - apply fold_map_seq.
  - intros j. rewrite map_map. cbn [value_at]. rewrite fold_map_seq.
    rewrite (single_column k (fun a => sInterp (X a) j (c i j)) nx).
    destruct (Nat.ltb_spec k nx); [reflexivity|lia].
Qed.
Lemma scalar_value nv nc x c i : (i < nv)%nat -> multi_interpolate_scalar nv nc x c i = poly (c i) nc x.
Proof.
  intros Hi. unfold multi_interpolate_scalar.
  assert (A : forall i o, In o (map (fun j => AddTo i 0%nat (sInterp x j (c i j))) (seq 0 nc)) -> exists c' v, o = AddTo i c' v).
  { intros i' o I. apply in_map_iff in I as (j & <- & _). eauto. }
  rewrite exec_seq_row by (auto; intros; eapply adds_row, A; eauto).
  rewrite exec_adds by (intros; eapply A; eauto). rewrite map_map. cbn [value_at Nat.eqb].
  change (zeros i 0%nat) with 0. rewrite Rplus_0_l. apply fold_map_seq.
Qed.

(** ** C23 *)
Theorem C23_rows_are_polynomials nv nc nx X c M i k :
  run Rplus nv (zeros, start (interp_row nc nx X c)) M ->
  (i < nv)%nat -> (k < nx)%nat -> M i k = poly (c i) nc (X k).
Proof.
  intros Hr Hi Hk. rewrite (schedule_independent R Rplus nv (interp_row nc nx X c) zeros M).
  - now apply interp_value.
  - intros; eapply adds_row, interp_row_adds; eauto.
  - exact Hr.
Qed.
Lemma polyval_poly x l : polyval x l = poly (fun j => nth j l 0) (List.length l) x.
Proof.
  induction l as [|a l IH]; [reflexivity|]. destruct l as [|b l].
  - unfold poly. simpl. ring.
  - change (polyval x (a :: b :: l)) with (a + polyval x (b :: l) * x). rewrite IH. unfold poly.
    change (List.length (a :: b :: l)) with (S (List.length (b :: l))).
    rewrite psum_shift. simpl (nth 0 _ _). rewrite pow_O, Rmult_1_r. f_equal.
    rewrite Rmult_comm, <- psum_scal. apply psum_ext. intros j _. simpl. ring.
Qed.
(** The single-row (Horner) path agrees with the parallel one. *)
Theorem C23_paths_agree nv nc nx X c i k :
  (i < nv)%nat -> (k < nx)%nat ->
  multi_interpolate_array nv nc nx X c i k = polyval (X k) (map (c i) (seq 0 nc)) /\
  multi_interpolate_scalar nv nc (X k) c i = polyval (X k) (map (c i) (seq 0 nc)).
Proof.
  intros Hi Hk. rewrite interp_value, scalar_value, polyval_poly, map_length, seq_length by assumption.
  assert (E : poly (c i) nc (X k) = poly (fun j => nth j (map (c i) (seq 0 nc)) 0) nc (X k)).
  { apply psum_ext. intros j Hj. f_equal. rewrite nth_indep with (d' := c i 0%nat) by (rewrite map_length, seq_length; auto).
    rewrite map_nth, seq_nth; auto. }
  now rewrite <- E.
Qed.
(** Linearity in the coefficients: interpolating U, TS and F separately keeps
    F = U - TS at every abscissa when it holds for the coefficients. *)
Theorem C23_linear_in_coefficients nv nc nx X a b c d i k :
  (i < nv)%nat -> (k < nx)%nat ->
  multi_interpolate_array nv nc nx X (fun i j => a * c i j + b * d i j) i k =
  a * multi_interpolate_array nv nc nx X c i k + b * multi_interpolate_array nv nc nx X d i k.
Proof.
  intros. rewrite !interp_value by assumption. unfold poly. rewrite <- !psum_scal, <- psum_plus.
  apply psum_ext. intros. ring.
Qed.
Example C23_instance :
  multi_interpolate_array 1 3 2 (fun k => INR (k + 2)) (fun _ j => INR (j + 1)) 0%nat 0%nat = 1 + 2 * 2 + 3 * (2 * 2).
Proof. rewrite interp_value by lia. unfold poly. simpl. ring. Qed.

(** ** C24 *)
Lemma polyval_cons x a r : polyval x (a :: r) = a + polyval x r * x.
Proof. destruct r; simpl; ring. Qed.
Lemma deriv_aux_shift x n c : polyval x (deriv_aux (S n) c) = polyval x (deriv_aux n c) + polyval x c.
Proof.
  revert n. induction c as [|a r IH]; intros n; [simpl; ring|].
  cbn [deriv_aux]. rewrite !polyval_cons, IH. rewrite S_INR. ring.
Qed.
Lemma deriv_cons x a r : polyval x (deriv (a :: r)) = polyval x r + x * polyval x (deriv r).
Proof.
  cbn [deriv]. destruct r as [|b r]; [simpl; ring|].
  cbn [deriv deriv_aux]. rewrite !polyval_cons, deriv_aux_shift. simpl (INR 1). ring.
Qed.
Lemma poly_derive c x : is_derive (fun x => polyval x c) x (polyval x (deriv c)).
Proof.
  induction c as [|a r IH].
  - simpl. apply (is_derive_const (V := R_NormedModule)).
  - apply is_derive_ext with (f := fun x => a + polyval x r * x); [intros; symmetry; apply polyval_cons|].
    rewrite deriv_cons. evar_last.
    { apply (is_derive_plus (fun _ => a) (fun x => polyval x r * x)); [apply (is_derive_const (V := R_NormedModule))|].
      apply (is_derive_mult (fun x => polyval x r) (fun x => x)); [exact IH|apply (is_derive_id (K := R_AbsRing))|].
      intros; apply Rmult_comm. }
    unfold plus, zero, mult, one. simpl. ring.
Qed.
Lemma polyval_add_const x c a : polyval x (add_const c a) = polyval x c + a.
Proof. destruct c; simpl add_const; rewrite ?polyval_cons; simpl; ring. Qed.

(** What an ideal root finder returns for the polynomial [c]. *)
Definition vanishes (c : list R) : Prop := forall x, polyval x c = 0.
Definition roots_exact (roots : list R -> list (R * R)) (c : list R) : Prop :=
  ~ vanishes c -> forall x, In (x, 0) (roots c) <-> polyval x c = 0.
Definition strict_local_minimum (g : R -> R) (v : R) : Prop :=
  exists eps, 0 < eps /\ forall w, 0 < Rabs (w - v) < eps -> g v < g w.

Lemma second_derivative_test (g g1 : R -> R) v d2 :
  (forall x, is_derive g x (g1 x)) -> g1 v = 0 -> is_derive g1 v d2 -> 0 < d2 -> strict_local_minimum g v.
Proof.
  intros D Z D2 P.
  apply is_derive_Reals in D2. destruct (D2 (d2 / 2)) as (del & Hdel); [lra|].
  exists del. split; [apply cond_pos|]. intros w (W1 & W2).
  assert (SGN : forall h, h <> 0 -> Rabs h < del -> 0 < g1 (v + h) / h).
  { intros h H0 H1. specialize (Hdel h H0 H1). rewrite Z, Rminus_0_r in Hdel. apply Rabs_def2 in Hdel. lra. }
  assert (NE : w <> v) by (intros ->; rewrite Rminus_diag_eq, Rabs_R0 in W1; auto; lra).
  destruct (Rdichotomy _ _ NE) as [L|G].
  - destruct (MVT_cor2 g g1 w v L) as (c & Ec & Hc).
    + intros c _. apply is_derive_Reals, D.
    + assert (S : 0 < g1 (v + (c - v)) / (c - v)) by (apply SGN; [lra|rewrite Rabs_left in *; lra]).
      replace (v + (c - v)) with c in S by ring.
      assert (g1 c < 0).
      { apply Rnot_le_lt. intros N. assert (g1 c / (c - v) <= 0); [|lra].
        apply Rmult_le_0_l; [exact N|]. left. apply Rinv_lt_0_compat. lra. }
      nra.
  - destruct (MVT_cor2 g g1 v w) as (c & Ec & Hc); [lra| |].
    + intros c _. apply is_derive_Reals, D.
    + assert (S : 0 < g1 (v + (c - v)) / (c - v)) by (apply SGN; [lra|rewrite Rabs_right in *; lra]).
      replace (v + (c - v)) with c in S by ring.
      assert (0 < g1 c).
      { apply Rnot_le_lt. intros N. assert (g1 c / (c - v) <= 0); [|lra].
        assert (0 < / (c - v)) by (apply Rinv_0_lt_compat; lra). unfold Rdiv. nra. }
      nra.
Qed.

Lemma Rle_b_true a b : Rle_b a b = true <-> a <= b.
Proof. unfold Rle_b. destruct (Rle_dec a b); split; intros; auto; try discriminate; contradiction. Qed.
Lemma Req_b_true a b : Req_b a b = true <-> a = b.
Proof. unfold Req_b. destruct (Req_EM_T a b); split; intros; auto; try discriminate; contradiction. Qed.
Lemma positive_b a : negb (Rle_b a 0) = true <-> 0 < a.
Proof.
  rewrite negb_true_iff. split; intros H.
  - apply Rnot_le_lt. intros N. apply Rle_b_true in N. congruence.
  - destruct (Rle_b a 0) eqn:E; [apply Rle_b_true in E; lra|reflexivity].
Qed.

Definition slope (F : list R) (P v : R) : R := polyval v (deriv F) + P.
Definition curvature (F : list R) (v : R) : R := polyval v (deriv (deriv F)).
Lemma curvature_zero F P : vanishes (add_const (deriv F) P) -> forall v, curvature F v = 0.
Proof.
  intros Z v. unfold curvature.
  assert (D : is_derive (fun x => polyval x (deriv F)) v 0).
  { apply is_derive_ext with (f := fun _ => - P).
    - intros t. specialize (Z t). rewrite polyval_add_const in Z. lra.
    - apply (is_derive_const (V := R_NormedModule)). }
  pose proof (poly_derive (deriv F) v) as D'.
  now rewrite <- (is_derive_unique _ _ _ D), <- (is_derive_unique _ _ _ D').
Qed.

(** Exactly the stationary points of F + P V with positive curvature are returned. *)
Theorem C24_returns_exactly_the_minima roots F P v :
  roots_exact roots (add_const (deriv F) P) ->
  In v (find_polynomial_minimum roots F (Some P)) <-> slope F P v = 0 /\ 0 < curvature F v.
Proof.
  intros HR. unfold find_polynomial_minimum. rewrite filter_In, positive_b, in_map_iff.
  fold (curvature F v). unfold slope. split.
  - intros (((x & y) & E & I) & C). split; [|exact C]. simpl in E. subst x.
    apply filter_In in I as (I & Hy). apply Req_b_true in Hy. simpl in Hy. subst y.
    apply HR in I; [rewrite polyval_add_const in I; exact I|].
    intros Z. rewrite (curvature_zero F P Z) in C. lra.
  - intros (S & C). split; [|exact C]. exists (v, 0). split; [reflexivity|].
    apply filter_In. split; [|now apply Req_b_true].
    apply HR; [|rewrite polyval_add_const; exact S].
    intros Z. rewrite (curvature_zero F P Z) in C. lra.
Qed.
(** Without a pressure the same holds for F itself. *)
Theorem C24_no_pressure roots F v :
  roots_exact roots (deriv F) ->
  In v (find_polynomial_minimum roots F None) <-> polyval v (deriv F) = 0 /\ 0 < curvature F v.
Proof.
  intros HR. unfold find_polynomial_minimum. rewrite filter_In, positive_b, in_map_iff.
  fold (curvature F v).
  assert (NZ : 0 < curvature F v -> ~ vanishes (deriv F)).
  { intros C Z. rewrite (curvature_zero F 0) in C; [lra|]. intros x. rewrite polyval_add_const, Z. ring. }
  split.
  - intros (((x & y) & E & I) & C). split; [|exact C]. simpl in E. subst x.
    apply filter_In in I as (I & Hy). apply Req_b_true in Hy. simpl in Hy. subst y.
    now apply HR in I; auto.
  - intros (S & C). split; [|exact C]. exists (v, 0). split; [reflexivity|].
    apply filter_In. split; [|now apply Req_b_true]. apply HR; auto.
Qed.
Theorem C24_strict_local_minimum roots F P v :
  roots_exact roots (add_const (deriv F) P) ->
  In v (find_polynomial_minimum roots F (Some P)) ->
  strict_local_minimum (fun w => polyval w F + P * w) v.
Proof.
  intros HR I. apply C24_returns_exactly_the_minima in I as (S & C); [|exact HR].
  apply second_derivative_test with (g1 := slope F P) (d2 := curvature F v); auto.
  - intros x. unfold slope. evar_last.
    { apply (is_derive_plus (fun w => polyval w F) (fun w => P * w)); [apply poly_derive|].
      apply (is_derive_scal (fun w => w)), (is_derive_id (K := R_AbsRing)). }
    unfold plus, mult, one, scal. simpl. unfold mult. simpl. ring.
  - unfold slope. evar_last.
    { apply (is_derive_plus (fun w => polyval w (deriv F)) (fun w => P)); [apply poly_derive|].
      apply (is_derive_const (V := R_NormedModule)). }
    unfold plus, zero. simpl. unfold curvature. ring.
Qed.
(** qha.py takes the first minimum; it raises exactly when there is none, and
    with roots in ascending order (numpy sorts them) it is the smallest volume. *)
Definition ascending (l : list R) : Prop :=
  forall i j, (i < j < List.length l)%nat -> nth i l 0 <= nth j l 0.
Theorem C24_raises_iff_no_minimum roots F P :
  roots_exact roots (add_const (deriv F) P) ->
  volume_at roots F P = None <-> ~ exists v, slope F P v = 0 /\ 0 < curvature F v.
Proof.
  intros HR. unfold volume_at.
  destruct (find_polynomial_minimum roots F (Some P)) as [|v l] eqn:E; simpl; split; intros H; auto; try discriminate.
  - intros (v & Hv). apply (C24_returns_exactly_the_minima roots F P v HR) in Hv. rewrite E in Hv. destruct Hv.
  - exfalso. apply H. exists v. apply (C24_returns_exactly_the_minima roots F P v HR). rewrite E. now left.
Qed.
Fixpoint sorted_fst (l : list (R * R)) : Prop :=
  match l with [] => True | z :: r => (forall w, In w r -> fst z <= fst w) /\ sorted_fst r end.
Lemma sorted_filter f l : sorted_fst l -> sorted_fst (filter f l).
Proof.
  induction l as [|z r IH]; simpl; [auto|]. intros (A & B). destruct (f z); simpl; auto.
  split; [|auto]. intros w I. apply filter_In in I. now apply A.
Qed.
Lemma head_least f l v r : sorted_fst l -> filter f (map fst l) = v :: r -> forall w, In w (filter f (map fst l)) -> v <= w.
Proof.
  revert v r. induction l as [|z l IH]; simpl; intros v r S E w I; [discriminate|].
  destruct S as (A & B). destruct (f (fst z)).
  - injection E as <- <-. destruct I as [<-|I]; [lra|]. apply filter_In in I as (I & _).
    apply in_map_iff in I as (q & <- & Iq). now apply A.
  - eapply IH; eauto.
Qed.
Theorem C24_smallest_volume roots F P v :
  roots_exact roots (add_const (deriv F) P) -> sorted_fst (roots (add_const (deriv F) P)) ->
  volume_at roots F P = Some v ->
  (slope F P v = 0 /\ 0 < curvature F v) /\
  forall w, slope F P w = 0 -> 0 < curvature F w -> v <= w.
Proof.
  intros HR HS E. unfold volume_at in E.
  destruct (find_polynomial_minimum roots F (Some P)) as [|v' l] eqn:EF; [discriminate|].
  injection E as ->. split.
  - apply (C24_returns_exactly_the_minima roots F P v HR). rewrite EF. now left.
  - intros w Sw Cw. assert (I : In w (find_polynomial_minimum roots F (Some P))) by (apply C24_returns_exactly_the_minima; auto).
    unfold find_polynomial_minimum in EF, I. eapply head_least; [|exact EF|exact I].
    apply sorted_filter, HS.
Qed.
(** A root finder that is exact on the example below. *)
Definition double_well : list R := [0; -8; 7; -7/3; 1/4].
Definition well_roots (_ : list R) : list (R * R) := [(1, 0); (2, 0); (4, 0)].
(** The smallest volume need not be the stable one: here the returned V = 1 has a
    larger F + P V than V = 4, also a minimum at the same pressure. *)
Theorem C24_global_minimum_refuted :
  exists F P roots v w,
    roots_exact roots (add_const (deriv F) P) /\ sorted_fst (roots (add_const (deriv F) P)) /\
    volume_at roots F P = Some v /\
    In w (find_polynomial_minimum roots F (Some P)) /\
    polyval w F + P * w < polyval v F + P * v.
Proof.
  exists double_well, 0, well_roots, 1, 4.
  assert (FM : find_polynomial_minimum well_roots double_well (Some 0) = [1; 4]).
  { unfold find_polynomial_minimum, well_roots, double_well.
    assert (R0 : Req_b 0 0 = true) by now apply Req_b_true.
    cbn [filter map fst snd]. rewrite R0. cbn [map fst filter deriv deriv_aux polyval]. simpl (INR _).
    assert (P1 : forall a, 0 < a -> negb (Rle_b a 0) = true) by (intros; now apply positive_b).
    assert (P2 : forall a, a <= 0 -> negb (Rle_b a 0) = false) by (intros; apply negb_false_iff; now apply Rle_b_true).
    rewrite P1, P2, P1 by lra. reflexivity. }
  split; [|split; [|split; [|split]]].
  - intros _ x. unfold double_well, well_roots. cbn [deriv deriv_aux add_const polyval In]. simpl (INR _). split.
    + intros [E|[E|[E|[]]]]; injection E as <-; lra.
    + intros H.
      assert (Z : (x - 1) * ((x - 2) * (x - 4)) = 0) by lra.
      apply Rmult_integral in Z as [Z|Z]; [left; f_equal; lra|].
      apply Rmult_integral in Z as [Z|Z]; [right; left; f_equal; lra|right; right; left; f_equal; lra].
  - simpl. repeat split; intros w H; repeat destruct H as [<-|H]; simpl; try lra; try contradiction.
  - unfold volume_at. now rewrite FM.
  - rewrite FM. simpl. auto.
  - unfold double_well. simpl. lra.
Qed.

(** A free energy of the shape met in practice, F(V) = (V - 10)^2, under P = 2. *)
Example C24_instance :
  let F := [100; -20; 1] in let roots := fun _ : list R => [(9, 0)] in
  roots_exact roots (add_const (deriv F) 2) /\ volume_at roots F 2 = Some 9.
Proof.
  intros F roots. split.
  - intros _ x. unfold roots, F. cbn [deriv deriv_aux add_const polyval In]. simpl (INR _). split.
    + intros [E|[]]. injection E as <-. lra.
    + intros H. left. f_equal. lra.
  - unfold volume_at, find_polynomial_minimum, roots, F.
    assert (R0 : Req_b 0 0 = true) by now apply Req_b_true.
    cbn [filter map fst snd]. rewrite R0. cbn [map fst filter deriv deriv_aux polyval]. simpl (INR _).
    assert (P1 : forall a, 0 < a -> negb (Rle_b a 0) = true) by (intros; now apply positive_b).
    rewrite P1 by lra. reflexivity.
Qed.

(** ** C25 *)
Lemma gradient_length Y g : gradient Y = Some g -> List.length g = List.length Y /\ (2 <= List.length Y)%nat.
Proof.
  unfold gradient. destruct (Nat.ltb_spec (List.length Y) 2); [discriminate|].
  intros E. injection E as <-. rewrite map_length, seq_length. auto.
Qed.
Theorem C25_outcomes X Y :
  (derivative X Y = LenError <-> (List.length X <= 1 /\ List.length Y <= 1)%nat) /\
  ((exists l, derivative X Y = Values l) <-> (2 <= List.length X /\ List.length X = List.length Y)%nat).
Proof.
  unfold derivative, gradient.
  destruct (Nat.leb_spec (List.length X) 1); destruct (Nat.leb_spec (List.length Y) 1); cbn [andb];
    destruct (Nat.ltb_spec (List.length X) 2); destruct (Nat.ltb_spec (List.length Y) 2); try lia;
    rewrite ?map_length, ?seq_length;
    try (destruct (Nat.eqb_spec (List.length Y) (List.length X)));
    (split; [split; intros; try discriminate; try lia; auto|split; [intros (l & E); try discriminate; try lia|intros; try lia; eauto]]).
Qed.

Definition at_ (l : list R) (i : nat) : R := nth i l 0.
(** Independent description of the stencil: the difference quotient across the
    neighbours of point i that exist. *)
Definition left_n (i : nat) : nat := (i - 1)%nat.
Definition right_n (n i : nat) : nat := Nat.min (S i) (n - 1).
Lemma combine_nth_map (f : R * R -> R) a b i : (i < List.length a)%nat -> List.length a = List.length b ->
  nth i (map f (combine a b)) 0 = f (nth i a 0, nth i b 0).
Proof.
  intros Hi E. rewrite nth_indep with (d' := f (0, 0)).
  - rewrite map_nth, combine_nth; auto.
  - rewrite map_length, combine_length, <- E, Nat.min_id. exact Hi.
Qed.
Lemma gradient_nth Y g i : gradient Y = Some g -> (i < List.length Y)%nat ->
  nth i g 0 = (at_ Y (right_n (List.length Y) i) - at_ Y (left_n i)) / INR (right_n (List.length Y) i - left_n i).
Proof.
  unfold gradient. destruct (Nat.ltb_spec (List.length Y) 2); [discriminate|].
  intros E Hi. apply (f_equal (fun o => match o with Some l => l | None => [] end)) in E. cbv beta iota in E. subst g.
  match goal with |- nth i (map ?f _) _ = _ => rewrite nth_indep with (d' := f 0%nat) by (rewrite map_length, seq_length; auto); rewrite (map_nth f) end.
  rewrite seq_nth by assumption. cbn [Nat.add]. unfold right_n, left_n, at_.
  destruct (Nat.eqb_spec i 0) as [->|N0].
  - replace (Nat.min 1 (List.length Y - 1)) with 1%nat by lia. simpl (0 - 1)%nat. simpl (1 - 0)%nat. simpl (INR 1). field.
  - destruct (Nat.eqb_spec (S i) (List.length Y)).
    + replace (Nat.min (S i) (List.length Y - 1)) with i by lia.
      replace (i - (i - 1))%nat with 1%nat by lia. simpl (INR 1). field.
    + replace (Nat.min (S i) (List.length Y - 1)) with (S i) by lia.
      replace (S i - (i - 1))%nat with 2%nat by lia. simpl (INR 2). field.
Qed.
Lemma derivative_nth X Y l i : derivative X Y = Values l -> (i < List.length X)%nat ->
  nth i l 0 = (at_ Y (right_n (List.length X) i) - at_ Y (left_n i)) / (at_ X (right_n (List.length X) i) - at_ X (left_n i)) /\
  List.length l = List.length X /\ List.length Y = List.length X /\ (2 <= List.length X)%nat.
Proof.
  intros E Hi.
  assert (EX : exists l, derivative X Y = Values l) by eauto. apply (proj2 (C25_outcomes X Y)) in EX as (L2 & LE).
  unfold derivative in E. destruct ((List.length X <=? 1)%nat && (List.length Y <=? 1)%nat)%bool; [discriminate|].
  destruct (gradient Y) as [gy|] eqn:Gy; [|discriminate]. destruct (gradient X) as [gx|] eqn:Gx; [|discriminate].
  destruct (gradient_length _ _ Gy) as (Ly & _), (gradient_length _ _ Gx) as (Lx & _).
  destruct (List.length gy =? List.length gx)%nat; [|discriminate]. injection E as <-.
  split; [|split; [|auto]].
  - unfold zip_div. rewrite combine_nth_map by lia. cbn [fst snd].
    rewrite (gradient_nth Y gy i Gy), (gradient_nth X gx i Gx) by lia. rewrite <- LE.
    set (n := INR _). assert (n <> 0) by (unfold n; apply not_0_INR; unfold right_n, left_n; lia).
    unfold Rdiv. rewrite Rinv_mult, Rinv_inv. 
    match goal with |- _ * _ * (?ib * _) = _ => generalize ib end. intros ib. field. assumption.
  - unfold zip_div. rewrite map_length, combine_length. lia.
Qed.
Definition strictly_monotone (X : list R) : Prop :=
  (forall i j, (i < j < List.length X)%nat -> at_ X i < at_ X j) \/
  (forall i j, (i < j < List.length X)%nat -> at_ X j < at_ X i).
Lemma monotone_span X i : strictly_monotone X -> (i < List.length X)%nat -> (2 <= List.length X)%nat ->
  at_ X (right_n (List.length X) i) - at_ X (left_n i) <> 0.
Proof.
  intros M Hi H2. assert (left_n i < right_n (List.length X) i < List.length X)%nat by (unfold left_n, right_n; lia).
  destruct M as [M|M]; specialize (M _ _ H); lra.
Qed.
(** No neighbour outside the array is ever consulted and affine data give the slope. *)
Theorem C25_exact_on_lines X a b i :
  strictly_monotone X -> (2 <= List.length X)%nat -> (i < List.length X)%nat ->
  exists l, derivative X (map (fun x => a * x + b) X) = Values l /\ List.length l = List.length X /\ nth i l 0 = a.
Proof.
  intros M H2 Hi.
  destruct (proj2 (C25_outcomes X (map (fun x => a * x + b) X))) as (_ & EX).
  destruct EX as (l & E); [now rewrite map_length|]. exists l.
  destruct (derivative_nth _ _ _ i E Hi) as (V & Ll & _ & _). split; [exact E|split; [exact Ll|]].
  rewrite V. pose proof (monotone_span X i M Hi H2) as NZ.
  assert (A : forall j, (j < List.length X)%nat -> at_ (map (fun x => a * x + b) X) j = a * at_ X j + b).
  { intros j Hj. unfold at_. rewrite nth_indep with (d' := a * 0 + b) by (now rewrite map_length).
    apply (map_nth (fun x => a * x + b)). }
  rewrite !A by (unfold right_n, left_n; lia). field. exact NZ.
Qed.
(** Quadratics: at an interior point the result is exact precisely when the
    point is midway between its neighbours (or there is no quadratic term). *)
Theorem C25_quadratics X a b c i :
  strictly_monotone X -> (0 < i)%nat -> (S i < List.length X)%nat ->
  exists l, derivative X (map (fun x => a * x ^ 2 + b * x + c) X) = Values l /\
    (nth i l 0 = 2 * a * at_ X i + b <-> a = 0 \/ at_ X i - at_ X (i - 1) = at_ X (S i) - at_ X i).
Proof.
  intros M H0 Hi. set (Q := fun x => a * x ^ 2 + b * x + c).
  destruct (proj2 (C25_outcomes X (map Q X))) as (_ & EX).
  destruct EX as (l & E); [rewrite map_length; lia|]. exists l. split; [exact E|].
  destruct (derivative_nth _ _ _ i E) as (V & _); [lia|]. rewrite V.
  pose proof (monotone_span X i M ltac:(lia) ltac:(lia)) as NZ.
  assert (A : forall j, (j < List.length X)%nat -> at_ (map Q X) j = Q (at_ X j)).
  { intros j Hj. unfold at_. rewrite nth_indep with (d' := Q 0) by (now rewrite map_length). apply (map_nth Q). }
  rewrite !A by (unfold right_n, left_n; lia). unfold left_n in *.
  replace (right_n (List.length X) i) with (S i) in * by (unfold right_n; lia).
  set (xr := at_ X (S i)) in *. set (xl := at_ X (i - 1)) in *. set (x := at_ X i). unfold Q.
  replace ((a * xr ^ 2 + b * xr + c - (a * xl ^ 2 + b * xl + c)) / (xr - xl)) with (a * (xr + xl) + b) by (field; exact NZ).
  split.
  - intros H. assert (Z : a * (xr + xl - 2 * x) = 0) by lra. apply Rmult_integral in Z as [Z|Z]; [auto|right; lra].
  - intros [->|H]; [ring|]. replace (xr + xl) with (2 * x) by lra. ring.
Qed.
Theorem C25_linear_in_Y X Y Z a b i l m n :
  List.length Y = List.length Z ->
  derivative X Y = Values l -> derivative X Z = Values m ->
  derivative X (map (fun p => a * fst p + b * snd p) (combine Y Z)) = Values n ->
  (i < List.length X)%nat -> nth i n 0 = a * nth i l 0 + b * nth i m 0.
Proof.
  intros LE Ey Ez En Hi.
  destruct (derivative_nth _ _ _ i Ey Hi) as (-> & _ & Ly & L2).
  destruct (derivative_nth _ _ _ i Ez Hi) as (-> & _ & Lz & _).
  destruct (derivative_nth _ _ _ i En Hi) as (-> & _).
  unfold at_. rewrite !combine_nth_map by (unfold right_n, left_n; lia). cbn [fst snd]. unfold Rdiv. ring.
Qed.
Example C25_instance : derivative [1; 2; 4] [3; 5; 9] = Values [2; 2; 2].
Proof. unfold derivative, gradient, zip_div. simpl. do 2 f_equal; [field|f_equal; [field|f_equal; field]]. Qed.
Example C25_nonuniform : exists l, derivative [0; 1; 3] (map (fun x => 1 * x ^ 2 + 0 * x + 0) [0; 1; 3]) = Values l /\ nth 1 l 0 = 3.
Proof. eexists. split; [unfold derivative, gradient, zip_div; simpl; reflexivity|]. simpl. field. Qed.

(** ** C66: the coefficient of determination *)
Lemma row_sums_value ny n val i : (i < ny)%nat -> row_sums ny n val i = psum (val i) n.
Proof.
  intros Hi. unfold row_sums.
  assert (A : forall i o, In o (acc_row n val i) -> exists c v, o = AddTo i c v).
  { intros i' o I. apply in_map_iff in I as (j & <- & _). eauto. }
  rewrite exec_seq_row by (auto; intros; eapply adds_row, A; eauto).
  rewrite exec_adds by (intros; eapply A; eauto). unfold acc_row. rewrite map_map. cbn [value_at Nat.eqb].
  change (zeros i 0%nat) with 0. rewrite Rplus_0_l. apply fold_map_seq.
Qed.
Definition mean (y : nat -> R) (n : nat) : R := psum y n / INR n.
Definition ss (y : nat -> R) (m : R) (n : nat) : R := psum (fun j => (y j - m) ^ 2) n.
(** Textbook coefficient of determination, as explained over total variance. *)
Definition R2_spec (y yhat : nat -> R) (n : nat) : R := ss yhat (mean y n) n / ss y (mean y n) n.
Definition constant (y : nat -> R) (n : nat) : Prop := forall j, (j < n)%nat -> y j = mean y n.

Lemma psum_nonneg f n : (forall j, (j < n)%nat -> 0 <= f j) -> 0 <= psum f n.
Proof. induction n; simpl; intros H; [lra|]. specialize (IHn ltac:(auto)). specialize (H n ltac:(auto)). lra. Qed.
Lemma psum_zero f n : (forall j, (j < n)%nat -> 0 <= f j) -> psum f n = 0 -> forall j, (j < n)%nat -> f j = 0.
Proof.
  induction n; simpl; intros H E j Hj; [lia|].
  assert (0 <= psum f n) by (apply psum_nonneg; auto). pose proof (H n ltac:(auto)).
  destruct (Nat.eq_dec j n) as [->|Ne]; [lra|]. apply IHn; [auto|lra|lia].
Qed.
Lemma psum_0 n : psum (fun _ => 0) n = 0.
Proof. induction n; simpl; [auto|rewrite IHn; ring]. Qed.
Lemma ss_zero y m n : ss y m n = 0 <-> forall j, (j < n)%nat -> y j = m.
Proof.
  unfold ss. split.
  - intros E j Hj. assert (Z : (y j - m) ^ 2 = 0) by (apply (psum_zero (fun j => (y j - m) ^ 2) n); auto; intros; apply pow2_ge_0).
    assert ((y j - m) * (y j - m) = 0) by (rewrite <- Z; ring). apply Rmult_integral in H as [H|H]; lra.
  - intros E. rewrite (psum_ext _ (fun _ => 0)); [apply psum_0|]. intros j Hj. rewrite E by auto. ring.
Qed.
Lemma R2_value ny nc nx X Y c i : (i < ny)%nat ->
  multi_R2 ny nc nx X Y c i =
    if Req_b (ss (Y i) (mean (Y i) nx) nx) 0 then 0
    else R2_spec (Y i) (fun j => poly (c i) nc (X j)) nx.
Proof.
  intros Hi. unfold multi_R2, R2_spec.
  assert (M : psum (fun j => Y i j / INR nx) nx = mean (Y i) nx).
  { unfold mean, Rdiv. rewrite Rmult_comm, <- psum_scal. apply psum_ext. intros; ring. }
  rewrite !row_sums_value by auto. cbv beta. rewrite !M. fold (ss (Y i) (mean (Y i) nx) nx).
  rewrite (psum_ext _ (fun j => (poly (c i) nc (X j) - mean (Y i) nx) ^ 2)); [reflexivity|].
  intros j Hj. rewrite interp_value by auto. reflexivity.
Qed.
Theorem C66_value ny nc nx X Y c i :
  (i < ny)%nat ->
  (~ constant (Y i) nx -> multi_R2 ny nc nx X Y c i = R2_spec (Y i) (fun j => poly (c i) nc (X j)) nx) /\
  (constant (Y i) nx -> multi_R2 ny nc nx X Y c i = 0).
Proof.
  intros Hi. rewrite R2_value by auto. unfold constant.
  split; intros H; destruct (Req_b _ 0) eqn:E; auto.
  - apply Req_b_true in E. pose proof (proj1 (ss_zero _ _ _) E). contradiction.
  - apply (proj2 (ss_zero _ _ _)) in H. apply Req_b_true in H. congruence.
Qed.
(** Least-squares normal equations: the residual is orthogonal to every monomial. *)
Definition least_squares (c : nat -> R) (nc : nat) (X y : nat -> R) (n : nat) : Prop :=
  forall k, (k < nc)%nat -> psum (fun j => (y j - poly c nc (X j)) * X j ^ k) n = 0.
Lemma residual_orthogonal (d : nat -> R) m c nc X y n : least_squares c nc X y n -> (m <= nc)%nat ->
  psum (fun j => (y j - poly c nc (X j)) * poly d m (X j)) n = 0.
Proof.
  intros L. induction m as [|m IH]; intros Hm.
  - rewrite (psum_ext _ (fun _ => 0)); [apply psum_0|]. intros. change (poly d 0 (X j)) with 0. ring.
  - rewrite (psum_ext _ (fun j => (y j - poly c nc (X j)) * poly d m (X j) + d m * ((y j - poly c nc (X j)) * X j ^ m))).
    + rewrite psum_plus, IH, psum_scal, L by lia. ring.
    + intros j _. change (poly d (S m) (X j)) with (poly d m (X j) + d m * X j ^ m). ring.
Qed.
Lemma variance_splits c nc X y n : least_squares c nc X y n -> (0 < nc)%nat ->
  ss y (mean y n) n = ss (fun j => poly c nc (X j)) (mean y n) n + psum (fun j => (y j - poly c nc (X j)) ^ 2) n.
Proof.
  intros L Hn. set (m := mean y n).
  assert (O1 := residual_orthogonal c nc c nc X y n L (le_n _)).
  assert (O2 := L 0%nat Hn).
  unfold ss.
  rewrite (psum_ext (fun j => (y j - m) ^ 2)
    (fun j => ((poly c nc (X j) - m) ^ 2 + (y j - poly c nc (X j)) ^ 2) +
              (2 * ((y j - poly c nc (X j)) * poly c nc (X j)) + (- 2 * m) * ((y j - poly c nc (X j)) * X j ^ 0)))).
  - rewrite !psum_plus, !psum_scal, O1, O2. ring.
  - intros. simpl. ring.
Qed.
(** For a least-squares fit: between 0 and 1, one minus the unexplained
    fraction, and 1 exactly when the polynomial goes through every point. *)
Theorem C66_least_squares ny nc nx X Y c i :
  (i < ny)%nat -> (0 < nc)%nat -> ~ constant (Y i) nx -> least_squares (c i) nc X (Y i) nx ->
  let r2 := multi_R2 ny nc nx X Y c i in
  0 <= r2 <= 1 /\
  r2 = 1 - psum (fun j => (Y i j - poly (c i) nc (X j)) ^ 2) nx / ss (Y i) (mean (Y i) nx) nx /\
  (r2 = 1 <-> forall j, (j < nx)%nat -> poly (c i) nc (X j) = Y i j).
Proof.
  intros Hi Hn NC L r2. unfold r2. rewrite (proj1 (C66_value ny nc nx X Y c i Hi) NC). unfold R2_spec.
  pose proof (variance_splits _ _ _ _ _ L Hn) as V.
  set (T := ss (Y i) _ _) in *. set (S := ss (fun j => _) _ _) in *. set (E := psum _ _) in *.
  assert (HT : T <> 0) by (unfold T; intros Z; apply NC; exact (proj1 (ss_zero _ _ _) Z)).
  assert (HS : 0 <= S) by (apply psum_nonneg; intros; apply pow2_ge_0).
  assert (HE : 0 <= E) by (apply psum_nonneg; intros; apply pow2_ge_0).
  assert (HP : 0 < T) by lra.
  assert (D : S / T = 1 - E / T) by (replace S with (T - E) by lra; field; exact HT).
  split; [split|split].
  - apply Rmult_le_pos; [exact HS|left; now apply Rinv_0_lt_compat].
  - apply Rmult_le_reg_r with T; [exact HP|]. unfold Rdiv. rewrite Rmult_assoc, Rinv_l by exact HT. lra.
  - exact D.
  - split.
    + intros H1 j Hj. assert (E0 : E = 0). { assert (S = T) by (apply Rmult_eq_reg_r with (/ T); [rewrite Rinv_r by exact HT; exact H1|now apply Rinv_neq_0_compat]). lra. }
      pose proof (psum_zero (fun j => (Y i j - poly (c i) nc (X j)) ^ 2) nx ltac:(intros; apply pow2_ge_0) E0 j Hj) as Z.
      simpl in Z. assert ((Y i j - poly (c i) nc (X j)) * (Y i j - poly (c i) nc (X j)) = 0) by lra.
      apply Rmult_integral in H as [H|H]; lra.
    + intros H. assert (E0 : E = 0). { unfold E. rewrite (psum_ext _ (fun _ => 0)); [apply psum_0|]. intros j Hj. rewrite H by auto. ring. }
      rewrite D, E0. field. exact HT.
Qed.
(** The two code paths differ on constant data: a perfectly fitted constant row is
    reported as 0 ("BAD") by the table path and is an undefined 0/0 in the single one. *)
Lemma lsum_psum l : lsum l = psum (fun j => nth j l 0) (List.length l).
Proof.
  induction l as [|a l IH]; [reflexivity|]. cbn [List.length]. rewrite psum_shift. cbn [nth].
  change (lsum (a :: l)) with (a + lsum l). now rewrite IH.
Qed.
Lemma nth_map0 (f : R -> R) l j : (j < List.length l)%nat -> nth j (map f l) 0 = f (nth j l 0).
Proof. intros H. rewrite nth_indep with (d' := f 0) by (now rewrite map_length). apply map_nth. Qed.
Theorem C66_single_path X Y c :
  List.length X = List.length Y ->
  let n := List.length Y in let y := fun j => nth j Y 0 in
  (constant y n -> single_R_squared X Y c = None) /\
  (~ constant y n -> single_R_squared X Y c = Some (R2_spec y (fun j => poly (fun k => nth k c 0) (List.length c) (nth j X 0)) n)).
Proof.
  intros LE n y. unfold single_R_squared.
  assert (M : lsum Y / INR (List.length X) = mean y n) by (unfold mean, y, n; now rewrite <- lsum_psum, LE).
  rewrite M.
  assert (T : lsum (map (fun v => (v - mean y n) ^ 2) Y) = ss y (mean y n) n).
  { rewrite lsum_psum, map_length. apply psum_ext. intros j Hj. now rewrite nth_map0 by exact Hj. }
  rewrite T. split; intros H.
  - apply (proj2 (ss_zero _ _ _)) in H. apply Req_b_true in H. now rewrite H.
  - destruct (Req_b _ 0) eqn:E; [apply Req_b_true in E; pose proof (proj1 (ss_zero _ _ _) E); contradiction|].
    do 2 f_equal. unfold R2_spec. f_equal.
    rewrite lsum_psum, !map_length, LE. apply psum_ext. intros j Hj.
    rewrite nth_map0 by (rewrite map_length; lia). rewrite nth_map0 by lia. now rewrite polyval_poly.
Qed.
Theorem C66_constant_row_refuted :
  exists X Y c,
    (forall j, (j < 3)%nat -> poly (c 0%nat) 1 (X j) = Y 0%nat j) /\
    multi_R2 1 1 3 X Y c 0%nat = 0 /\ single_R_squared [1; 2; 3] [5; 5; 5] [5] = None.
Proof.
  exists (fun j => INR (S j)), (fun _ _ => 5), (fun _ _ => 5).
  split; [|split].
  - intros. unfold poly. simpl. ring.
  - apply (proj2 (C66_value 1 1 3 _ _ _ 0%nat ltac:(lia))). intros j _. unfold mean. simpl. field.
  - apply (proj1 (C66_single_path [1; 2; 3] [5; 5; 5] [5] eq_refl)). intros j Hj. unfold mean. simpl in *.
    destruct j as [|[|[|j]]]; try lia; field.
Qed.
(** Without the normal equations the number is not a fraction. *)
Example C66_not_a_fit : multi_R2 1 2 2 (fun j => INR j) (fun _ j => INR j) (fun _ j => 3 * INR j) 0%nat = 13.
Proof.
  rewrite R2_value by lia. destruct (Req_b _ 0) eqn:E.
  - apply Req_b_true in E. unfold ss, mean in E. simpl in E. lra.
  - unfold R2_spec, ss, mean, poly. simpl. field.
Qed.

Print Assumptions C23_rows_are_polynomials.
Print Assumptions C24_strict_local_minimum.
Print Assumptions C24_smallest_volume.
Print Assumptions C24_global_minimum_refuted.
Print Assumptions C25_quadratics.
Print Assumptions C66_least_squares.
