(** C43 and C44. *)
From Coq Require Import Reals List ZArith Lia Lra.
From Verif Require Import StatMechModel ThermoProps GridModel.
Import ListNotations.
Open Scope R_scope.

(** ** C43 *)
Lemma ceil_bound x : x <= IZR (ceil x) < x + 1.
Proof.
  unfold ceil. rewrite opp_IZR. destruct (base_Int_part (- x)). lra.
Qed.
(** Number of values: index k exists exactly when (k as a real) is below x. *)
Lemma ceil_index x k : (k < Z.to_nat (ceil x))%nat <-> INR k < x.
Proof.
  rewrite INR_IZR_INZ. destruct (ceil_bound x) as [A B]. split; intros H.
  - assert (L : (Z.of_nat k < ceil x)%Z) by lia.
    assert (L' : (Z.of_nat k <= ceil x - 1)%Z) by lia. apply IZR_le in L'. rewrite minus_IZR in L'. lra.
  - assert (L : IZR (Z.of_nat k) < IZR (ceil x)) by lra. apply lt_IZR in L. lia.
Qed.

(** The points the user asks for: min, min + step, min + 2 step, ... *)
Definition point (lo step : R) (k : nat) : R := lo + INR k * step.

Theorem C43_zero_step lo hi step : set_range (lo, hi, step) = None <-> step = 0.
Proof.
  unfold set_range, arange. destruct (Req_b step 0) eqn:E; split; intros H; try discriminate; auto.
  - now apply Req_b_true.
  - apply Req_b_true in H. congruence.
Qed.

Lemma set_range_some lo hi step : step <> 0 ->
  set_range (lo, hi, step) = Some (map (point lo step) (seq 0 (Z.to_nat (ceil ((hi + step - lo) / step))))).
Proof. intros H. unfold set_range, arange. apply Req_b_false in H. now rewrite H. Qed.
Lemma nth_points lo step n k d : (k < n)%nat -> nth k (map (point lo step) (seq 0 n)) d = point lo step k.
Proof.
  intros H. rewrite nth_indep with (d' := point lo step 0) by (rewrite map_length, seq_length; auto).
  rewrite map_nth, seq_nth by auto. reflexivity.
Qed.

(** Exactly the points below max + step, in order. *)
Theorem C43_points lo hi step l :
  0 < step -> set_range (lo, hi, step) = Some l ->
  (forall k, (k < List.length l)%nat <-> point lo step k < hi + step) /\
  (forall k d, (k < List.length l)%nat -> nth k l d = point lo step k).
Proof.
  intros H E. rewrite set_range_some in E by lra. injection E as <-.
  rewrite map_length, seq_length. split; [|intros; now apply nth_points].
  intros k. rewrite ceil_index. unfold point. split; intros L.
  - apply Rmult_lt_compat_r with (r := step) in L; [|exact H].
    replace ((hi + step - lo) / step * step) with (hi + step - lo) in L by (field; lra). lra.
  - apply Rmult_lt_reg_r with step; [exact H|].
    replace ((hi + step - lo) / step * step) with (hi + step - lo) by (field; lra). lra.
Qed.
(** With a negative step the range runs downwards. *)
Theorem C43_negative_step lo hi step l :
  step < 0 -> set_range (lo, hi, step) = Some l ->
  (forall k, (k < List.length l)%nat <-> hi + step < point lo step k) /\
  (forall k d, (k < List.length l)%nat -> nth k l d = point lo step k).
Proof.
  intros H E. rewrite set_range_some in E by lra. injection E as <-.
  rewrite map_length, seq_length. split; [|intros; now apply nth_points].
  intros k. rewrite ceil_index. unfold point.
  replace ((hi + step - lo) / step) with ((lo - hi - step) / (- step)) by (field; lra). split; intros L.
  - apply Rmult_lt_compat_r with (r := - step) in L; [|lra].
    replace ((lo - hi - step) / - step * - step) with (lo - hi - step) in L by (field; lra). lra.
  - apply Rmult_lt_reg_r with (- step); [lra|].
    replace ((lo - hi - step) / - step * - step) with (lo - hi - step) by (field; lra). lra.
Qed.

(** A range which is a whole number of steps gives min, ..., max. *)
Theorem C43_whole_range lo hi step n l :
  0 < step -> hi = point lo step n -> set_range (lo, hi, step) = Some l ->
  List.length l = S n /\ nth 0 l 0 = lo /\ nth n l 0 = hi /\ (forall x, In x l -> lo <= x <= hi).
Proof.
  intros H E S. destruct (C43_points _ _ _ _ H S) as [L V].
  assert (N : List.length l = Datatypes.S n).
  { assert (A : (n < List.length l)%nat) by (apply L; rewrite E; unfold point; lra).
    assert (B : ~ (Datatypes.S n < List.length l)%nat).
    { intros C. apply L in C. rewrite E in C. unfold point in C. rewrite S_INR in C. lra. }
    lia. }
  split; [exact N|]. split; [rewrite V by lia; unfold point; simpl; ring|]. split; [rewrite V by lia; auto|].
  intros x I. apply In_nth with (d := 0) in I as (k & Hk & <-). rewrite V by exact Hk.
  rewrite E. unfold point. rewrite N in Hk.
  assert (INR k <= INR n) by (apply le_INR; lia). pose proof (pos_INR k). split; nra.
Qed.
(** Otherwise the last point lies beyond max, by less than a step. *)
Theorem C43_beyond_max lo hi step l :
  0 < step -> lo <= hi -> set_range (lo, hi, step) = Some l ->
  (forall n, hi <> point lo step n) ->
  (2 <= List.length l)%nat /\ hi < last l 0 < hi + step /\ nth (List.length l - 2) l 0 < hi.
Proof.
  intros H LE S NI. destruct (C43_points _ _ _ _ H S) as [L V].
  assert (A : (1 < List.length l)%nat).
  { apply L. unfold point. simpl. assert (hi <> lo) by (intros E; apply (NI 0%nat); unfold point; simpl; lra). lra. }
  assert (LA : last l 0 = nth (List.length l - 1) l 0).
  { clear -A. destruct l as [|a l] using rev_ind; [simpl in A; lia|].
    rewrite last_last, app_length, app_nth2; simpl; [|lia].
    replace (List.length l + 1 - 1 - List.length l)%nat with 0%nat by lia. reflexivity. }
  split; [lia|]. rewrite LA, !V by lia. set (n := List.length l) in *.
  assert (B : point lo step (n - 1) < hi + step) by (apply L; lia).
  assert (C : ~ point lo step n < hi + step) by (intros C; apply L in C; lia).
  assert (D : point lo step n = point lo step (n - 1) + step).
  { unfold point. replace n with (Datatypes.S (n - 1)) at 1 by lia. rewrite S_INR. ring. }
  assert (E : point lo step (n - 1) = point lo step (n - 2) + step).
  { unfold point. replace (n - 1)%nat with (Datatypes.S (n - 2)) by lia. rewrite S_INR. ring. }
  pose proof (NI (n - 1)%nat). lra.
Qed.
(** Degenerate ranges. *)
Theorem C43_empty_iff lo hi step l :
  0 < step -> set_range (lo, hi, step) = Some l -> (l = [] <-> hi + step <= lo).
Proof.
  intros H S. destruct (C43_points _ _ _ _ H S) as [L _]. specialize (L 0%nat). unfold point in L. simpl in L.
  destruct l as [|a l]; simpl in L; split; intros A; try discriminate; auto.
  - destruct (Rle_lt_dec (hi + step) lo); auto. assert (0 < 0)%nat by (apply L; lra). lia.
  - assert (lo + 0 * step < hi + step) by (apply L; lia). lra.
Qed.

Example C43_default_temperature : set_range (29815/100, 29815/100, 1) = Some [29815/100].
Proof.
  destruct (set_range (29815/100, 29815/100, 1)) as [l|] eqn:E; [|apply C43_zero_step in E; lra].
  destruct (C43_whole_range (29815/100) (29815/100) 1 0 _ ltac:(lra) ltac:(unfold point; simpl; lra) E) as (N & A & _).
  destruct l as [|a [|b l]]; try discriminate. simpl in A. now rewrite A.
Qed.
Example C43_beyond_instance : exists l, set_range (0, 10, 3) = Some l /\ List.length l = 5%nat /\ last l 0 = 12.
Proof.
  destruct (set_range (0, 10, 3)) as [l|] eqn:E; [|apply C43_zero_step in E; lra]. exists l. split; [auto|].
  destruct (C43_points 0 10 3 _ ltac:(lra) E) as [L V].
  assert (A : (4 < List.length l)%nat) by (apply L; unfold point; simpl; lra).
  assert (B : ~ (5 < List.length l)%nat) by (intros C; apply L in C; unfold point in C; simpl in C; lra).
  assert (N : List.length l = 5%nat) by lia. split; [auto|].
  pose proof (V 4%nat 0 A) as X. unfold point in X. simpl in X.
  do 6 (destruct l as [|? l]; try (simpl in N; lia)). simpl in *. lra.
Qed.

(** ** C44 *)
Lemma fine_grid_length n s : List.length (fst (fine_grid n s)) = n.
Proof. unfold fine_grid. cbn [fst]. rewrite map_length, seq_length. lia. Qed.
Lemma fine_grid_nth n s i d : (i < n)%nat -> nth i (fst (fine_grid n s)) d = (INR i - INR (n / 2)) * (s / 100).
Proof.
  intros H. unfold fine_grid. cbn [fst].
  replace (Z.to_nat _) with n by lia.
  set (f := fun i : nat => _).
  rewrite nth_indep with (d' := f 0%nat) by (rewrite map_length, seq_length; auto).
  rewrite map_nth, seq_nth by auto. unfold f. f_equal. rewrite !INR_IZR_INZ, <- minus_IZR.
  f_equal. rewrite Nat2Z.inj_div. simpl (Z.of_nat 2). lia.
Qed.

Theorem C44_grid n s :
  let g := fst (fine_grid n s) in let c := snd (fine_grid n s) in
  List.length g = n /\ c = (n / 2)%nat /\
  (forall i d, (S i < n)%nat -> nth (S i) g d - nth i g d = s / 100) /\
  ((0 < n)%nat -> nth c g 0 = 0).
Proof.
  intros g c. assert (C : c = (n / 2)%nat) by (unfold c, fine_grid; cbn [snd]; rewrite map_length, seq_length; f_equal; lia).
  split; [apply fine_grid_length|]. split; [exact C|]. split.
  - intros i d H. unfold g. rewrite !fine_grid_nth by lia. rewrite S_INR. ring.
  - intros H. rewrite C. unfold g. rewrite fine_grid_nth by (apply Nat.div_lt; lia). ring.
Qed.
Theorem C44_symmetric n s i :
  Nat.odd n = true -> (i < n)%nat ->
  nth (n - 1 - i) (fst (fine_grid n s)) 0 = - nth i (fst (fine_grid n s)) 0.
Proof.
  intros O H. rewrite !fine_grid_nth by lia. apply Nat.odd_spec in O as [m ->].
  replace ((2 * m + 1) / 2)%nat with m by (apply Nat.div_unique with 1%nat; lia).
  rewrite !minus_INR, plus_INR, mult_INR by lia. simpl. ring.
Qed.
(** An even number of points is accepted but gives a lopsided grid. *)
Theorem C44_even_refuted :
  exists n s i, (i < n)%nat /\ nth (n - 1 - i) (fst (fine_grid n s)) 0 <> - nth i (fst (fine_grid n s)) 0.
Proof.
  exists 4%nat, 1, 0%nat. split; [lia|]. rewrite !fine_grid_nth by lia. simpl. lra.
Qed.
(** The volumes actually used: centred on the equilibrium volume, which is the
    point at the returned index, equally spaced by 0.05% of it, all positive. *)
Theorem C44_volumes v :
  let l := volume_grid v (fst (fine_grid 5 (5/100))) in
  List.length l = 5%nat /\ nth (snd (fine_grid 5 (5/100))) l 0 = v /\
  (forall i, (i < 5)%nat -> nth i l 0 + nth (4 - i) l 0 = 2 * v) /\
  (forall i, (i < 4)%nat -> nth (S i) l 0 - nth i l 0 = v * (5/10000)) /\
  (0 < v -> forall x, In x l -> 0 < x).
Proof.
  intros l. assert (N : forall i, (i < 5)%nat -> nth i l 0 = v + v * ((INR i - 2) * (5/10000))).
  { intros i Hi. unfold l, volume_grid. set (h := fun e => _).
    rewrite nth_indep with (d' := h 0) by (rewrite map_length, fine_grid_length; auto).
    rewrite map_nth, fine_grid_nth by auto. unfold h. simpl (INR (5 / 2)). field. }
  split; [unfold l, volume_grid; now rewrite map_length, fine_grid_length|].
  split; [destruct (C44_grid 5 (5/100)) as (_ & C & _); rewrite C; rewrite N by (simpl; lia); simpl; ring|].
  split; [|split].
  - intros i Hi. rewrite !N by lia. do 5 (destruct i as [|i]; [simpl; field|]). lia.
  - intros i Hi. rewrite !N by lia. rewrite S_INR. field.
  - intros Hv x I. apply In_nth with (d := 0) in I as (k & Hk & <-).
    unfold l, volume_grid in Hk. rewrite map_length, fine_grid_length in Hk. rewrite N by auto.
    assert (INR k <= 4) by (replace 4 with (INR 4) by (simpl; lra); apply le_INR; lia). pose proof (pos_INR k).
    assert (0 < 1 + (INR k - 2) * (5 / 10000)) by lra. nra.
Qed.
Example C44_instance : nth 2 (volume_grid 100 (fst (fine_grid 5 (5/100)))) 0 = 100.
Proof. exact (proj1 (proj2 (C44_volumes 100))). Qed.

Print Assumptions C43_zero_step.
Print Assumptions C43_points.
Print Assumptions C43_negative_step.
Print Assumptions C43_whole_range.
Print Assumptions C43_beyond_max.
Print Assumptions C43_empty_iff.
Print Assumptions C44_grid.
Print Assumptions C44_symmetric.
Print Assumptions C44_even_refuted.
Print Assumptions C44_volumes.
