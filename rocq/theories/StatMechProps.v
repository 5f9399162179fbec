(** Properties C07-C13 (harmonic statistical mechanics). *)
From Coq Require Import Reals List Lra Lia Arith Bool Permutation.
From Coquelicot Require Import Coquelicot.
From Verif Require Import ParModel ParProofs StatMechModel StatMechSpec StatMechProofs.
Import ListNotations.
Open Scope R_scope.

(** A concrete system: one q-point of weight 1, two modes (one imaginary), one volume. *)
Definition ph1 : phys := {| hpl := 1; KB := 1; NA := 1 |}.
Definition bands1 : bands :=
  {| nb := 1; nf := 2; nv := 1; freq := fun j k n => match k with O => 1 | _ => -3 end |}.
Definition w1 : nat -> R := fun _ => 1.
Example ph1_physical : physical ph1. Proof. unfold physical, ph1; simpl; lra. Qed.
Example w1_nonneg : nonneg_weights bands1 w1. Proof. intros j _. unfold w1. lra. Qed.
Example has_mode1 : has_mode bands1 w1 0.
Proof. exists 0%nat, 0%nat. simpl. unfold w1. repeat split; try lia; lra. Qed.

Section Props.
Variable P : phys.
Hypothesis PP : physical P.
Variables (nt : nat) (b : bands) (w : nat -> R).

(** ** C07 *)
Theorem C07_F_is_U_minus_TS T i n :
  (i < nt)%nat -> (n < nv b)%nat -> 0 <= T i ->
  vibrational_free_energy P nt T b w i n =
    zero_point_energy P nt T b w i n + thermal_energy P nt T b w i n
    - T i * entropy P nt T b w i n / 1000.
Proof.
  intros Hi Hn HT.
  unfold vibrational_free_energy, zero_point_energy, thermal_energy, entropy.
  rewrite !band_loop_sum by assumption. unfold band_sum.
  replace (T i * Rsum (nb b) (fun j => Rsum (nf b) (fun k => ho_S P (T i) (freq b j k n) * w j)) / 1000)
    with (Rsum (nb b) (fun j => Rsum (nf b) (fun k => T i / 1000 * (ho_S P (T i) (freq b j k n) * w j)))).
  2:{ rewrite (Rsum_ext _ _ (fun j => T i / 1000 * Rsum (nf b) (fun k => ho_S P (T i) (freq b j k n) * w j)))
        by (intros; apply Rsum_scal). rewrite Rsum_scal. lra. }
  match goal with |- ?L = ?A + ?B - ?C => enough (L + C = A + B) by lra end.
  rewrite <- !Rsum_plus. apply Rsum_ext. intros j _. rewrite <- !Rsum_plus. apply Rsum_ext. intros k _.
  rewrite (mode_identity P PP (T i)) by assumption. lra.
Qed.

(** The totals assembled by [internal_energy] and [free_energy]. *)
Theorem C07_total T U0 i n :
  (i < nt)%nat -> (n < nv b)%nat -> 0 <= T i ->
  free_energy nt (nv b) U0 (vibrational_free_energy P nt T b w) i n =
    internal_energy nt (nv b) U0 (zero_point_energy P nt T b w 0) (thermal_energy P nt T b w) i n
    - T i * entropy P nt T b w i n / 1000.
Proof.
  intros Hi Hn HT. rewrite free_energy_value, internal_energy_value by assumption.
  rewrite C07_F_is_U_minus_TS by assumption.
  replace (zero_point_energy P nt T b w 0 n) with (zero_point_energy P nt T b w i n); [lra|].
  unfold zero_point_energy. rewrite !band_loop_sum by (assumption || lia). reflexivity.
Qed.

(** ** C08 *)
Theorem C08_heat_capacity_is_dU_dT i n T :
  (i < nt)%nat -> (n < nv b)%nat -> 0 < T ->
  is_derive (fun t => thermal_energy P nt (fun _ => t) b w i n) T
            (isochoric_heat_capacity P nt (fun _ => T) b w i n / 1000).
Proof.
  intros Hi Hn HT. unfold thermal_energy, isochoric_heat_capacity.
  apply is_derive_ext with (fun t => band_sum b w n (ho_eth P t)).
  { intros t. now rewrite band_loop_sum. }
  rewrite band_loop_sum by assumption. unfold band_sum.
  replace (Rsum (nb b) (fun j => Rsum (nf b) (fun k => ho_Cv P T (freq b j k n) * w j)) / 1000)
    with (Rsum (nb b) (fun j => Rsum (nf b) (fun k => ho_Cv P T (freq b j k n) / 1000 * w j))).
  - apply Rsum_is_derive. intros j _. apply (Rsum_is_derive _ (fun k y => ho_eth P y (freq b j k n) * w j)).
    intros k _. apply (is_derive_ext (fun t => w j * ho_eth P t (freq b j k n))).
    { intros; apply Rmult_comm. }
    rewrite Rmult_comm. apply is_derive_scal, eth_derive; assumption.
  - unfold Rdiv. rewrite <- Rsum_scal_r. apply Rsum_ext. intros j _.
    rewrite <- Rsum_scal_r. apply Rsum_ext. intros; lra.
Qed.

Theorem C08_entropy_is_minus_dF_dT i n T :
  (i < nt)%nat -> (n < nv b)%nat -> 0 < T ->
  is_derive (fun t => vibrational_free_energy P nt (fun _ => t) b w i n) T
            (- (entropy P nt (fun _ => T) b w i n) / 1000).
Proof.
  intros Hi Hn HT. unfold vibrational_free_energy, entropy.
  apply is_derive_ext with (fun t => band_sum b w n (ho_F P t)).
  { intros t. now rewrite band_loop_sum. }
  rewrite band_loop_sum by assumption. unfold band_sum.
  replace (- Rsum (nb b) (fun j => Rsum (nf b) (fun k => ho_S P T (freq b j k n) * w j)) / 1000)
    with (Rsum (nb b) (fun j => Rsum (nf b) (fun k => - ho_S P T (freq b j k n) / 1000 * w j))).
  - apply Rsum_is_derive. intros j _. apply (Rsum_is_derive _ (fun k y => ho_F P y (freq b j k n) * w j)).
    intros k _. apply (is_derive_ext (fun t => w j * ho_F P t (freq b j k n))).
    { intros; apply Rmult_comm. }
    rewrite Rmult_comm. apply is_derive_scal, F_derive; assumption.
  - unfold Rdiv. rewrite Ropp_mult_distr_l_reverse, Ropp_mult_distr_r.
    rewrite <- Rsum_scal_r. apply Rsum_ext. intros j _.
    rewrite <- Rsum_scal_r. apply Rsum_ext. intros; lra.
Qed.

Theorem C08_T_dS_dT_is_heat_capacity i n T :
  (i < nt)%nat -> (n < nv b)%nat -> 0 < T ->
  is_derive (fun t => entropy P nt (fun _ => t) b w i n) T
            (isochoric_heat_capacity P nt (fun _ => T) b w i n / T).
Proof.
  intros Hi Hn HT. unfold entropy, isochoric_heat_capacity.
  apply is_derive_ext with (fun t => band_sum b w n (ho_S P t)).
  { intros t. now rewrite band_loop_sum. }
  rewrite band_loop_sum by assumption. unfold band_sum.
  replace (Rsum (nb b) (fun j => Rsum (nf b) (fun k => ho_Cv P T (freq b j k n) * w j)) / T)
    with (Rsum (nb b) (fun j => Rsum (nf b) (fun k => ho_Cv P T (freq b j k n) / T * w j))).
  - apply Rsum_is_derive. intros j _. apply (Rsum_is_derive _ (fun k y => ho_S P y (freq b j k n) * w j)).
    intros k _. apply (is_derive_ext (fun t => w j * ho_S P t (freq b j k n))).
    { intros; apply Rmult_comm. }
    rewrite Rmult_comm. apply is_derive_scal, S_derive; assumption.
  - unfold Rdiv. rewrite <- Rsum_scal_r. apply Rsum_ext. intros j _.
    rewrite <- Rsum_scal_r. apply Rsum_ext. intros; lra.
Qed.

(** ** C09 *)
Lemma band_sum_le n f g : nonneg_weights b w -> (forall x, f x <= g x) ->
  band_sum b w n f <= band_sum b w n g.
Proof.
  intros W L. apply Rsum_le. intros j Hj. apply Rsum_le. intros k _.
  apply Rmult_le_compat_r; [apply W; exact Hj|apply L].
Qed.
Lemma band_sum_lt n f g : nonneg_weights b w -> has_mode b w n ->
  (forall x, f x <= g x) -> (forall x, 0 < x -> f x < g x) -> band_sum b w n f < band_sum b w n g.
Proof.
  intros W (j0 & k0 & Hj & Hk & Hf & Hw) L S. apply Rsum_lt.
  - intros j Hj'. apply Rsum_le. intros k _. apply Rmult_le_compat_r; [apply W; exact Hj'|apply L].
  - exists j0. split; [exact Hj|]. apply Rsum_lt.
    + intros k _. apply Rmult_le_compat_r; [lra|apply L].
    + exists k0. split; [exact Hk|]. apply Rmult_lt_compat_r; auto.
Qed.
Lemma band_sum_const n c : band_sum b w n (fun _ => c) = INR (nf b) * c * sum_weights b w.
Proof.
  unfold band_sum, sum_weights. rewrite <- Rsum_scal. apply Rsum_ext. intros j _.
  rewrite (Rsum_const (nf b) (c * w j)). lra.
Qed.
Lemma band_sum_0 n : band_sum b w n (fun _ => 0) = 0.
Proof. rewrite band_sum_const. lra. Qed.

Theorem C09_bounds T i n :
  (i < nt)%nat -> (n < nv b)%nat -> 0 <= T i -> nonneg_weights b w ->
  0 <= thermal_energy P nt T b w i n <= / 1000 * INR (nf b) * sum_weights b w * NA P * KB P * T i /\
  0 <= entropy P nt T b w i n /\
  0 <= isochoric_heat_capacity P nt T b w i n <= INR (nf b) * sum_weights b w * NA P * KB P /\
  vibrational_free_energy P nt T b w i n <= zero_point_energy P nt T b w i n /\
  0 <= zero_point_energy P nt T b w i n.
Proof.
  intros Hi Hn HT W.
  unfold vibrational_free_energy, zero_point_energy, thermal_energy, entropy, isochoric_heat_capacity.
  rewrite !band_loop_sum by assumption.
  split; [split|split; [|split; [split|split]]].
  - rewrite <- (band_sum_0 n). apply band_sum_le; auto. intros; apply eth_bounds; assumption.
  - replace (/ 1000 * INR (nf b) * sum_weights b w * NA P * KB P * T i)
      with (band_sum b w n (fun _ => / 1000 * NA P * KB P * T i)) by (rewrite band_sum_const; lra).
    apply band_sum_le; auto. intros; apply eth_bounds; assumption.
  - rewrite <- (band_sum_0 n). apply band_sum_le; auto. intros; apply S_nonneg; assumption.
  - rewrite <- (band_sum_0 n). apply band_sum_le; auto. intros; apply Cv_bounds; assumption.
  - replace (INR (nf b) * sum_weights b w * NA P * KB P)
      with (band_sum b w n (fun _ => NA P * KB P)) by (rewrite band_sum_const; lra).
    apply band_sum_le; auto. intros; apply Cv_bounds; assumption.
  - apply band_sum_le; auto. intros; apply F_le_zpe; assumption.
  - rewrite <- (band_sum_0 n). apply band_sum_le; auto. intros x.
    destruct (Rle_or_lt x 0) as [Hx|Hx].
    + destruct (inert P (T i) x Hx) as (-> & _). lra.
    + rewrite zpe_pos_val by assumption. destruct PP as (h1 & h2 & h3).
      apply Rmult_le_pos; [lra|]. assert (0 < hpl P * x) by (apply Rmult_lt_0_compat; assumption). lra.
Qed.

(** ** C10 *)
(** One-sided limit at 0, epsilon-delta. *)
Definition limit_0 (f : R -> R) (l : R) : Prop :=
  forall eps, 0 < eps -> exists d, 0 < d /\ forall t, 0 < t < d -> Rabs (f t - l) < eps.

Lemma limit_0_lin f l c d0 : 0 < d0 -> (forall t, 0 < t < d0 -> Rabs (f t - l) <= c * t) -> limit_0 f l.
Proof.
  intros Hd L eps He. set (c' := Rabs c + 1).
  assert (0 < c') by (unfold c'; pose proof (Rabs_pos c); lra).
  exists (Rmin d0 (eps / c')). split; [apply Rmin_pos; [exact Hd|apply Rdiv_lt_0_compat; assumption]|].
  intros t Ht. pose proof (Rmin_l d0 (eps / c')). pose proof (Rmin_r d0 (eps / c')).
  eapply Rle_lt_trans; [apply L; lra|].
  apply Rle_lt_trans with (Rabs c * t).
  { apply Rmult_le_compat_r; [lra|]. apply Rle_abs. }
  apply Rlt_le_trans with (c' * t).
  { unfold c'. apply Rmult_lt_compat_r; lra. }
  apply Rle_trans with (c' * (eps / c')). { apply Rmult_le_compat_l; lra. }
  right. field. lra.
Qed.
Lemma limit_0_ext f g l : (forall t, f t = g t) -> limit_0 f l -> limit_0 g l.
Proof. intros E L eps He. destruct (L eps He) as (d & Hd & B). exists d. split; auto. intros t Ht. rewrite <- E. auto. Qed.
Lemma limit_0_const l : limit_0 (fun _ => l) l.
Proof. intros eps He. exists 1. split; [lra|]. intros. unfold Rminus. rewrite Rplus_opp_r, Rabs_R0. exact He. Qed.
Lemma limit_0_plus f g a c : limit_0 f a -> limit_0 g c -> limit_0 (fun t => f t + g t) (a + c).
Proof.
  intros A B eps He. destruct (A (eps / 2)) as (d1 & H1 & L1); [lra|]. destruct (B (eps / 2)) as (d2 & H2 & L2); [lra|].
  exists (Rmin d1 d2). split; [apply Rmin_pos; assumption|]. intros t Ht.
  pose proof (Rmin_l d1 d2). pose proof (Rmin_r d1 d2).
  replace (f t + g t - (a + c)) with ((f t - a) + (g t - c)) by ring.
  eapply Rle_lt_trans; [apply Rabs_triang|]. specialize (L1 t). specialize (L2 t). lra.
Qed.
Lemma limit_0_scal f a c : limit_0 f a -> limit_0 (fun t => f t * c) (a * c).
Proof.
  intros A eps He. destruct (A (eps / (Rabs c + 1))) as (d & Hd & L).
  { apply Rdiv_lt_0_compat; [exact He|]. pose proof (Rabs_pos c). lra. }
  exists d. split; [exact Hd|]. intros t Ht. replace (f t * c - a * c) with ((f t - a) * c) by ring.
  rewrite Rabs_mult. specialize (L t Ht). pose proof (Rabs_pos c).
  apply Rle_lt_trans with (eps / (Rabs c + 1) * Rabs c). { apply Rmult_le_compat_r; lra. }
  apply Rlt_le_trans with (eps / (Rabs c + 1) * (Rabs c + 1)).
  { apply Rmult_lt_compat_l; [apply Rdiv_lt_0_compat|]; lra. }
  right. field. lra.
Qed.
Lemma limit_0_sum m (f : nat -> R -> R) l :
  (forall j, limit_0 (f j) (l j)) -> limit_0 (fun t => Rsum m (fun j => f j t)) (Rsum m l).
Proof. intros L. induction m; simpl; [apply limit_0_const|]. apply limit_0_plus; auto. Qed.
Lemma limit_0_band n f g : (forall x, limit_0 (fun t => f t x) (g x)) ->
  limit_0 (fun t => band_sum b w n (f t)) (band_sum b w n g).
Proof.
  intros L. unfold band_sum. apply (limit_0_sum _ (fun j t => Rsum (nf b) (fun k => f t (freq b j k n) * w j))).
  intros j. apply (limit_0_sum _ (fun k t => f t (freq b j k n) * w j)). intros k.
  apply (limit_0_scal (fun t => f t (freq b j k n))). apply L.
Qed.

Theorem C10_zero_temperature_is_limit i n :
  (i < nt)%nat -> (n < nv b)%nat ->
  let at_T f t := f P nt (fun _ : nat => t) b w i n in
  (at_T thermal_energy 0 = 0 /\ limit_0 (at_T thermal_energy) (at_T thermal_energy 0)) /\
  (at_T entropy 0 = 0 /\ limit_0 (at_T entropy) (at_T entropy 0)) /\
  (at_T isochoric_heat_capacity 0 = 0 /\
     limit_0 (at_T isochoric_heat_capacity) (at_T isochoric_heat_capacity 0)) /\
  (at_T vibrational_free_energy 0 = at_T zero_point_energy 0 /\
     limit_0 (at_T vibrational_free_energy) (at_T vibrational_free_energy 0)).
Proof.
  intros Hi Hn at_T.
  assert (V : forall ho t, band_loop ho nt (fun _ => t) b w i n = band_sum b w n (ho t))
    by (intros; apply band_loop_sum; assumption).
  unfold at_T, thermal_energy, entropy, isochoric_heat_capacity, vibrational_free_energy, zero_point_energy.
  assert (Z : forall f, (forall x, f x = 0) -> band_sum b w n f = 0).
  { intros f E. unfold band_sum. apply Rsum_0. intros. apply Rsum_0. intros. rewrite E. lra. }
  split; [|split; [|split]]; split.
  - rewrite V. apply Z. intros; apply at_zero.
  - apply (limit_0_ext (fun t => band_sum b w n (ho_eth P t))). { intros; now rewrite V. }
    rewrite V. apply limit_0_band. intros x. destruct (at_zero P x) as (-> & _).
    eapply (limit_0_lin _ _ _ 1); [lra|]. intros t Ht. apply eth_lin; [exact PP|lra].
  - rewrite V. apply Z. intros; apply at_zero.
  - apply (limit_0_ext (fun t => band_sum b w n (ho_S P t))). { intros; now rewrite V. }
    rewrite V. apply limit_0_band. intros x. destruct (at_zero P x) as (_ & -> & _).
    destruct (Rle_or_lt x 0) as [Hx|Hx].
    + apply (limit_0_ext (fun _ => 0)); [|apply limit_0_const].
      intros t. destruct (inert P t x Hx) as (_ & _ & -> & _). reflexivity.
    + eapply (limit_0_lin _ _ _ 1); [lra|]. intros t Ht. apply S_lin; [exact PP|assumption|lra].
  - rewrite V. apply Z. intros; apply at_zero.
  - apply (limit_0_ext (fun t => band_sum b w n (ho_Cv P t))). { intros; now rewrite V. }
    rewrite V. apply limit_0_band. intros x. destruct (at_zero P x) as (_ & _ & -> & _).
    destruct (Rle_or_lt x 0) as [Hx|Hx].
    + apply (limit_0_ext (fun _ => 0)); [|apply limit_0_const].
      intros t. destruct (inert P t x Hx) as (_ & _ & _ & _ & ->). reflexivity.
    + eapply (limit_0_lin _ _ _ 1); [lra|]. intros t Ht. apply Cv_lin; [exact PP|assumption|lra].
  - rewrite !V. unfold band_sum. apply Rsum_ext. intros j _. apply Rsum_ext. intros k _.
    destruct (at_zero P (freq b j k n)) as (_ & _ & _ & ->). reflexivity.
  - apply (limit_0_ext (fun t => band_sum b w n (ho_F P t))). { intros; now rewrite V. }
    rewrite V. apply limit_0_band. intros x.
    destruct (Rle_or_lt x 0) as [Hx|Hx].
    + apply (limit_0_ext (fun _ => 0)).
      { intros t. destruct (inert P t x Hx) as (_ & _ & _ & -> & _). reflexivity. }
      destruct (inert P 0 x Hx) as (_ & _ & _ & -> & _). apply limit_0_const.
    + destruct (at_zero P x) as (_ & _ & _ & ->).
      apply (limit_0_lin _ _ (/ 1000 * NA P * KB P * (KB P / (hpl P * x))) 1); [lra|]. intros t Ht.
      change (ho_zpe P 0 x) with (ho_zpe P t x).
      eapply Rle_trans; [apply F_lin; [exact PP|lra|assumption]|].
      destruct PP as (h1 & h2 & h3).
      assert (0 < KB P / (hpl P * x)) by (apply Rdiv_lt_0_compat; [|apply Rmult_lt_0_compat]; assumption).
      assert (0 < / 1000 * NA P * KB P * (KB P / (hpl P * x))).
      { apply Rmult_lt_0_compat; [|assumption]. apply Rmult_lt_0_compat; [|assumption]. lra. }
      set (c := / 1000 * NA P * KB P * (KB P / (hpl P * x))) in *.
      rewrite Rmult_assoc. apply Rmult_le_compat_l; [lra|]. nra.
Qed.

(** ** C11 *)
Theorem C11_monotone T i i' n :
  (i < nt)%nat -> (i' < nt)%nat -> (n < nv b)%nat -> nonneg_weights b w ->
  0 <= T i -> T i <= T i' ->
  thermal_energy P nt T b w i n <= thermal_energy P nt T b w i' n /\
  entropy P nt T b w i n <= entropy P nt T b w i' n /\
  vibrational_free_energy P nt T b w i' n <= vibrational_free_energy P nt T b w i n.
Proof.
  intros Hi Hi' Hn W H0 H1. unfold thermal_energy, entropy, vibrational_free_energy.
  rewrite !band_loop_sum by assumption. repeat split; apply band_sum_le; auto; intros.
  - apply eth_mono; assumption.
  - apply S_mono; assumption.
  - apply F_mono; assumption.
Qed.
Theorem C11_strictly_monotone T i i' n :
  (i < nt)%nat -> (i' < nt)%nat -> (n < nv b)%nat -> nonneg_weights b w -> has_mode b w n ->
  0 <= T i -> T i < T i' ->
  thermal_energy P nt T b w i n < thermal_energy P nt T b w i' n /\
  entropy P nt T b w i n < entropy P nt T b w i' n /\
  vibrational_free_energy P nt T b w i' n < vibrational_free_energy P nt T b w i n.
Proof.
  intros Hi Hi' Hn W M H0 H1. unfold thermal_energy, entropy, vibrational_free_energy.
  rewrite !band_loop_sum by assumption. repeat split; apply band_sum_lt; auto; intros.
  - apply eth_mono; try assumption; lra.
  - apply eth_mono_strict; assumption.
  - apply S_mono; try assumption; lra.
  - apply S_mono_strict; assumption.
  - apply F_mono; try assumption; lra.
  - apply F_mono_strict; assumption.
Qed.

(** ** C12 *)
(** Same shape, and equal frequencies wherever either is positive. *)
Definition same_real_modes (b b' : bands) : Prop :=
  nb b = nb b' /\ nf b = nf b' /\ nv b = nv b' /\
  forall j k n, freq b j k n = freq b' j k n \/ (freq b j k n <= 0 /\ freq b' j k n <= 0).

Definition five : list (R -> R -> R) := [ho_zpe P; ho_eth P; ho_S P; ho_F P; ho_Cv P].
Lemma five_inert ho T x : In ho five -> x <= 0 -> ho T x = 0.
Proof.
  intros I Hx. destruct (inert P T x Hx) as (A & B & C & D & E).
  simpl in I. decompose [or] I; subst; assumption || contradiction.
Qed.

(** [five] lists exactly the summands of the five tables. *)
Theorem C12_imaginary_modes_inert ho T b' i n :
  In ho five -> same_real_modes b b' -> (i < nt)%nat -> (n < nv b)%nat ->
  band_loop ho nt T b w i n = band_loop ho nt T b' w i n.
Proof.
  intros I (E1 & E2 & E3 & E4) Hi Hn. rewrite !band_loop_sum by (assumption || lia).
  unfold band_sum. rewrite <- E1, <- E2. apply Rsum_ext. intros j _. apply Rsum_ext. intros k _.
  destruct (E4 j k n) as [->|[A B]]; [reflexivity|].
  rewrite !(five_inert ho (T i)) by assumption. reflexivity.
Qed.

Theorem C12_imaginary_modes_inert_tables T b' i n :
  same_real_modes b b' -> (i < nt)%nat -> (n < nv b)%nat ->
  zero_point_energy P nt T b w i n = zero_point_energy P nt T b' w i n /\
  thermal_energy P nt T b w i n = thermal_energy P nt T b' w i n /\
  entropy P nt T b w i n = entropy P nt T b' w i n /\
  vibrational_free_energy P nt T b w i n = vibrational_free_energy P nt T b' w i n /\
  isochoric_heat_capacity P nt T b w i n = isochoric_heat_capacity P nt T b' w i n.
Proof.
  intros S Hi Hn.
  repeat split; apply C12_imaginary_modes_inert; try assumption; unfold five; simpl; auto 6.
Qed.

(** Appending [m] modes of non-positive frequency to every q-point. *)
Theorem C12_appended_inert_modes ho T m (extra : nat -> nat -> nat -> R) i n :
  In ho five -> (forall j k n, extra j k n <= 0) -> (i < nt)%nat -> (n < nv b)%nat ->
  band_loop ho nt T {| nb := nb b; nf := nf b + m; nv := nv b;
                       freq := fun j k n => if (k <? nf b)%nat then freq b j k n else extra j k n |} w i n
  = band_loop ho nt T b w i n.
Proof.
  intros I E Hi Hn. rewrite !band_loop_sum by (simpl; assumption).
  unfold band_sum. simpl. apply Rsum_ext. intros j _. induction m as [|m IH].
  - rewrite Nat.add_0_r. apply Rsum_ext. intros k Hk. apply Nat.ltb_lt in Hk. now rewrite Hk.
  - rewrite Nat.add_succ_r. simpl. rewrite IH.
    destruct (Nat.ltb_spec (nf b + m) (nf b)); [lia|].
    rewrite (five_inert ho (T i)) by auto. lra.
Qed.

(** ** C13 *)
(** Every complete interleaving of the row threads ends in the array of the
    sequential loop. *)
Theorem C13_schedule_independent ho T m' :
  run Rplus nt (zeros, start (band_iteration ho T b w)) m' ->
  forall i n, m' i n = band_loop ho nt T b w i n.
Proof.
  intros R. apply schedule_independent; [|exact R]. intros; eapply iteration_row; eauto.
Qed.
Theorem C13_some_schedule ho T :
  exists m', run Rplus nt (zeros, start (band_iteration ho T b w)) m'.
Proof. apply run_exists. Qed.

(** Rows depend only on their own temperature. *)
Theorem C13_row_locality ho T T' nt' i i' n :
  (i < nt)%nat -> (i' < nt')%nat -> (n < nv b)%nat -> T i = T' i' ->
  band_loop ho nt T b w i n = band_loop ho nt' T' b w i' n.
Proof. intros Hi Hi' Hn E. rewrite !band_loop_sum by assumption. now rewrite E. Qed.

(** The table is the weighted sum over q-points and modes. *)
Theorem C13_is_weighted_sum ho T i n :
  (i < nt)%nat -> (n < nv b)%nat ->
  band_loop ho nt T b w i n =
  Rsum (nb b) (fun j => Rsum (nf b) (fun k => ho (T i) (freq b j k n) * w j)).
Proof. apply band_loop_sum. Qed.

Theorem C13_linear_in_weights ho T w' c c' i n :
  (i < nt)%nat -> (n < nv b)%nat ->
  band_loop ho nt T b (fun j => c * w j + c' * w' j) i n =
  c * band_loop ho nt T b w i n + c' * band_loop ho nt T b w' i n.
Proof.
  intros Hi Hn. rewrite !band_loop_sum by assumption. unfold band_sum.
  rewrite <- !Rsum_scal, <- Rsum_plus. apply Rsum_ext. intros j _.
  rewrite <- !Rsum_scal, <- Rsum_plus. apply Rsum_ext. intros k _. ring.
Qed.
End Props.

(** Concatenation of two q-point sets. *)
Definition concat_q (b1 b2 : bands) : bands :=
  {| nb := nb b1 + nb b2; nf := nf b1; nv := nv b1;
     freq := fun j => if (j <? nb b1)%nat then freq b1 j else freq b2 (j - nb b1) |}.
Definition concat_w (b1 : bands) (w1 w2 : nat -> R) : nat -> R :=
  fun j => if (j <? nb b1)%nat then w1 j else w2 (j - nb b1)%nat.
Theorem C13_additive_over_qpoints ho nt T b1 b2 w1 w2 i n :
  nf b1 = nf b2 -> nv b1 = nv b2 -> (i < nt)%nat -> (n < nv b1)%nat ->
  band_loop ho nt T (concat_q b1 b2) (concat_w b1 w1 w2) i n =
  band_loop ho nt T b1 w1 i n + band_loop ho nt T b2 w2 i n.
Proof.
  intros E1 E2 Hi Hn. rewrite !band_loop_sum by (simpl; assumption || lia).
  unfold band_sum, concat_q, concat_w. simpl. rewrite <- E1.
  set (f := fun j => Rsum (nf b1) (fun k => ho (T i) (freq b2 j k n) * w2 j)).
  induction (nb b2) as [|m IH]; simpl.
  - rewrite Nat.add_0_r, Rplus_0_r. apply Rsum_ext. intros j Hj. apply Nat.ltb_lt in Hj. now rewrite Hj.
  - rewrite Nat.add_succ_r. simpl. rewrite IH.
    destruct (Nat.ltb_spec (nb b1 + m) (nb b1)); [lia|].
    replace (nb b1 + m - nb b1)%nat with m by lia. unfold f. ring.
Qed.

(** Permuting q-points with their weights, and modes within each q-point. *)
Lemma Rsum_fold n f : Rsum n f = fold_right (fun j s => f j + s) 0 (seq 0 n).
Proof.
  induction n; [reflexivity|]. rewrite seq_S, fold_right_app. simpl. rewrite IHn.
  assert (G : forall l c, fold_right (fun j s => f j + s) c l = fold_right (fun j s => f j + s) 0 l + c).
  { induction l; intros; simpl; [lra|]. rewrite IHl. lra. }
  rewrite (G _ (f n + 0)). lra.
Qed.
Lemma fold_perm (f : nat -> R) l l' : Permutation l l' ->
  fold_right (fun j s => f j + s) 0 l = fold_right (fun j s => f j + s) 0 l'.
Proof. induction 1; simpl; lra. Qed.
Lemma fold_map (f : nat -> R) (s : nat -> nat) l :
  fold_right (fun j a => f (s j) + a) 0 l = fold_right (fun j a => f j + a) 0 (map s l).
Proof. induction l; simpl; congruence. Qed.
Definition perm_of (n : nat) (s : nat -> nat) : Prop := Permutation (map s (seq 0 n)) (seq 0 n).
Lemma Rsum_perm n s f : perm_of n s -> Rsum n (fun j => f (s j)) = Rsum n f.
Proof. intros Hs. rewrite !Rsum_fold, fold_map. apply fold_perm. exact Hs. Qed.

Theorem C13_permutation_invariant ho nt T b w (s : nat -> nat) (t : nat -> nat -> nat) i n :
  perm_of (nb b) s -> (forall j, perm_of (nf b) (t j)) -> (i < nt)%nat -> (n < nv b)%nat ->
  band_loop ho nt T {| nb := nb b; nf := nf b; nv := nv b;
                       freq := fun j k n => freq b (s j) (t j k) n |} (fun j => w (s j)) i n
  = band_loop ho nt T b w i n.
Proof.
  intros Hs Ht Hi Hn. rewrite !band_loop_sum by (simpl; assumption). unfold band_sum. simpl.
  rewrite <- (Rsum_perm _ _ (fun j => Rsum (nf b) (fun k => ho (T i) (freq b j k n) * w j)) Hs).
  apply Rsum_ext. intros j _.
  apply (Rsum_perm (nf b) (t j) (fun k => ho (T i) (freq b (s j) k n) * w (s j))). apply Ht.
Qed.

(** Bit-for-bit version: for any element type and any (not necessarily
    associative or commutative) addition, such as IEEE double addition, every
    schedule gives the array of the sequential loop. *)
Theorem C13_schedule_independent_any_arithmetic
  (A : Type) (add : A -> A -> A) (zero : A) nb nf nv nt (val : nat -> nat -> nat -> nat -> A) m' :
  run add nt (fun _ _ => zero, start (accumulate nb nf nv val)) m' ->
  forall i n, m' i n = exec add (flat_map (accumulate nb nf nv val) (seq 0 nt)) (fun _ _ => zero) i n.
Proof.
  intros R. apply schedule_independent; [|exact R].
  intros i o _ I. unfold accumulate in I.
  apply in_flat_map in I as (j & _ & I). apply in_flat_map in I as (k & _ & I).
  apply in_map_iff in I as (n & <- & _). reflexivity.
Qed.
Theorem C13_assembly_schedule_independent nt nvol U0 Uzp Uth Fvib m1 m2 :
  run Rplus nt (zeros, start (internal_energy_iteration nvol U0 Uzp Uth)) m1 ->
  run Rplus nt (zeros, start (free_energy_iteration nvol U0 Fvib)) m2 ->
  forall i n, m1 i n = internal_energy nt nvol U0 Uzp Uth i n /\
              m2 i n = free_energy nt nvol U0 Fvib i n.
Proof.
  intros R1 R2 i n. split; [revert i n; apply schedule_independent; [|exact R1]
                           |revert i n; apply schedule_independent; [|exact R2]];
  intros r o _ I; unfold internal_energy_iteration, free_energy_iteration in I;
  apply in_map_iff in I as (p & <- & _); reflexivity.
Qed.

(** Non-vacuity: the concrete system above, at T = 2. *)
Example C07_instance :
  vibrational_free_energy ph1 1 (fun _ => 2) bands1 w1 0 0 =
    zero_point_energy ph1 1 (fun _ => 2) bands1 w1 0 0 + thermal_energy ph1 1 (fun _ => 2) bands1 w1 0 0
    - 2 * entropy ph1 1 (fun _ => 2) bands1 w1 0 0 / 1000.
Proof. apply (C07_F_is_U_minus_TS ph1 ph1_physical 1 bands1 w1 (fun _ => 2)); simpl; try lia; lra. Qed.
Example C11_instance :
  entropy ph1 2 (fun i => INR i) bands1 w1 0 0 < entropy ph1 2 (fun i => INR i) bands1 w1 1 0.
Proof.
  apply (C11_strictly_monotone ph1 ph1_physical 2 bands1 w1 (fun i => INR i) 0 1 0); try lia;
  try exact w1_nonneg; try exact has_mode1; simpl; lra || lia.
Qed.
Example C13_perm_instance : perm_of 3 (fun j => 2 - j)%nat.
Proof.
  unfold perm_of. simpl. apply perm_trans with [2; 0; 1]%nat.
  - constructor. apply perm_swap.
  - apply perm_trans with [0; 2; 1]%nat; [apply perm_swap|]. constructor. apply perm_swap.
Qed.
Example zpe_value : zero_point_energy ph1 1 (fun _ => 5) bands1 w1 0 0 = / 2000.
Proof.
  unfold zero_point_energy. rewrite band_loop_sum by (simpl; lia). unfold band_sum. simpl. unfold w1.
  rewrite (zpe_pos_val ph1 5 1) by lra. destruct (inert ph1 5 (-3)) as (-> & _); simpl; lra.
Qed.

Print Assumptions C07_F_is_U_minus_TS.
Print Assumptions C07_total.
Print Assumptions C08_heat_capacity_is_dU_dT.
Print Assumptions C08_entropy_is_minus_dF_dT.
Print Assumptions C08_T_dS_dT_is_heat_capacity.
Print Assumptions C09_bounds.
Print Assumptions C10_zero_temperature_is_limit.
Print Assumptions C11_monotone.
Print Assumptions C11_strictly_monotone.
Print Assumptions C12_imaginary_modes_inert.
Print Assumptions C12_imaginary_modes_inert_tables.
Print Assumptions C12_appended_inert_modes.
Print Assumptions C13_schedule_independent.
Print Assumptions C13_some_schedule.
Print Assumptions C13_row_locality.
Print Assumptions C13_is_weighted_sum.
Print Assumptions C13_linear_in_weights.
Print Assumptions C13_additive_over_qpoints.
Print Assumptions C13_permutation_invariant.
Print Assumptions C13_schedule_independent_any_arithmetic.
Print Assumptions C13_assembly_schedule_independent.
