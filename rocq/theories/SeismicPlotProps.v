(** C84: the figures of a seismic run. *)
From Coq Require Import Reals String Ascii List Bool Arith ZArith Lia Lra.
From Coquelicot Require Import Coquelicot.
From Verif Require Import Py DecimalModel DecimalProofs FormatModel FormatProofs SymmetryModel TensorModel TensorProps QhaRunModel SeismicModel SeismicLinear SeismicProps SeismicObjProps SeismicIsoProps TableModel SoecTableModel SeismicTableModel SeismicTableProps SeismicPlotModel SeismicPlotProofs.
Import ListNotations.
Open Scope string_scope.
Open Scope list_scope.
Open Scope nat_scope.

(** * What the figures should show *)
(** The direction of angles theta (from the z axis) and phi (from the x axis). *)
Definition on_sphere (theta phi : R) : R * R * R := (sin theta * cos phi, sin theta * sin phi, cos theta)%R.
(** Where a direction (a, b, c) of the upper half of the sphere is drawn: for the
    stereographic map, where the line from the south pole (0, 0, -1) through it
    meets the equatorial plane; for Lambert's map, along the same azimuth at the
    distance to the pole divided by sqrt 2. *)
Definition seen (pr : projection) (n : R * R * R) : R * R :=
  let '(a, b, c) := n in
  match pr with Stereo => (a / (1 + c), b / (1 + c))%R | Eqar => (a / sqrt (1 + c), b / sqrt (1 + c))%R end.
(** The angles of node (t, p). *)
Definition theta_at (ntheta t : nat) : R := (PI / 2 * (INR t / (INR ntheta - 1)))%R.
Definition phi_at (nphi p : nat) : R := (2 * PI * (INR p / (INR nphi - 1)))%R.

Lemma half_range u : (0 <= u <= PI / 2 -> 0 <= 1 / 2 * u <= PI / 4)%R. Proof. intros; lra. Qed.
Lemma half_cos u : (0 <= u <= PI / 2 -> 0 < cos (1 / 2 * u))%R.
Proof. intros H. pose proof PI_RGT_0. apply cos_gt_0; lra. Qed.
Lemma half_sin u : (0 <= u <= PI / 2 -> 0 <= sin (1 / 2 * u))%R.
Proof. intros H. pose proof PI_RGT_0. apply sin_ge_0; lra. Qed.
Lemma sin_double u : sin u = (2 * sin (1 / 2 * u) * cos (1 / 2 * u))%R.
Proof. rewrite <- sin_2a. f_equal. lra. Qed.
Lemma cos_double u : cos u = (2 * (cos (1 / 2 * u) * cos (1 / 2 * u)) - 1)%R.
Proof. replace (cos u) with (cos (2 * (1 / 2 * u))) by (f_equal; lra). rewrite cos_2a_cos. ring. Qed.
Lemma plane_seen pr u v : (0 <= u <= PI / 2)%R -> plane pr u v = seen pr (on_sphere u v).
Proof.
  intros H. pose proof (half_cos u H) as K. unfold plane, seen, on_sphere. rewrite (sin_double u), (cos_double u).
  set (c := cos (1 / 2 * u)) in *. set (s := sin (1 / 2 * u)) in *.
  replace (1 + (2 * (c * c) - 1))%R with (2 * (c * c))%R by ring. destruct pr.
  - unfold tan. fold c s. f_equal; field; lra.
  - rewrite sqrt_mult, sqrt_square by nra. assert (Q : (0 < sqrt 2)%R) by (apply sqrt_lt_R0; lra).
    assert (QQ : (sqrt 2 * sqrt 2 = 2)%R) by (apply sqrt_sqrt; lra).
    f_equal; apply Rmult_eq_reg_r with (sqrt 2 * c)%R; try nra; field_simplify; try nra; rewrite ?pow2_sqrt by lra; ring.
Qed.

(** ** The two maps *)
(** The whole upper half is inside the drawn square, the pole in its centre and
    the equator on the unit circle. *)
Theorem C84_disc pr u v : (0 <= u <= PI / 2)%R ->
  let '(x, y) := plane pr u v in
  ((x * x + y * y <= 1) /\ (x * x + y * y = 0 <-> u = 0) /\ (x * x + y * y = 1 <-> u = PI / 2) /\ -1 <= x <= 1 /\ -1 <= y <= 1)%R.
Proof.
  intros H. pose proof PI_RGT_0 as P. pose proof (half_cos u H) as K. pose proof (half_sin u H) as K'.
  destruct (plane pr u v) as [x y] eqn:E.
  pose proof (sin2_cos2 v) as V. pose proof (sin2_cos2 (1 / 2 * u)) as U. unfold Rsqr in U, V.
  assert (CU := cos_double u).
  assert (C0 : (0 <= cos u)%R) by (apply cos_ge_0; lra).
  assert (CE : (cos u = 0 <-> u = PI / 2)%R).
  { split; intros A; [|subst u; apply cos_PI2]. destruct (Req_dec u (PI / 2)) as [|N]; [assumption|]. assert (0 < cos u)%R by (apply cos_gt_0; lra). lra. }
  assert (SE : (sin (1 / 2 * u) = 0 <-> u = 0)%R).
  { split; intros A; [|subst u; replace (1 / 2 * 0)%R with 0%R by ring; apply sin_0]. destruct (Req_dec u 0) as [|N]; [assumption|].
    assert (0 < sin (1 / 2 * u))%R by (apply sin_gt_0; lra). lra. }
  set (c := cos (1 / 2 * u)) in *. set (s := sin (1 / 2 * u)) in *. set (a := cos v) in *. set (b := sin v) in *.
  assert (Q : (x * x + y * y = match pr with Stereo => (s / c) * (s / c) | Eqar => 2 * (s * s) end)%R).
  { unfold plane in E. destruct pr; injection E as <- <-; unfold tan; fold c s a b.
    - replace (s / c * a * (s / c * a) + s / c * b * (s / c * b))%R with ((s / c) * (s / c) * (b * b + a * a))%R by ring. rewrite V. ring.
    - replace (sqrt 2 * s * a * (sqrt 2 * s * a) + sqrt 2 * s * b * (sqrt 2 * s * b))%R with ((sqrt 2 * sqrt 2) * (s * s) * (b * b + a * a))%R by ring.
      rewrite V, sqrt_sqrt by lra. ring. }
  assert (B : (x * x + y * y <= 1 /\ (x * x + y * y = 0 <-> u = 0) /\ (x * x + y * y = 1 <-> u = PI / 2))%R).
  { rewrite Q. destruct pr.
    - assert (D : (s / c * (s / c) * (c * c) = s * s)%R) by (field; lra). assert (CC : (0 < c * c)%R) by nra. assert (G : (0 <= s / c * (s / c))%R) by nra.
      split; [|split].
      + apply Rmult_le_reg_r with (c * c)%R; [exact CC|]. rewrite D. nra.
      + rewrite <- SE. split; intros A; [rewrite A in D; nra|rewrite A; field; lra].
      + rewrite <- CE. split; intros A; [rewrite A in D; nra|]. apply Rmult_eq_reg_r with (c * c)%R; [|lra]. rewrite D. nra.
    - split; [nra|]. split; [rewrite <- SE; split; intros; nra|rewrite <- CE; split; intros; nra]. }
  destruct B as (B1 & B2 & B3). split; [exact B1|]. split; [exact B2|]. split; [exact B3|]. split; nra.
Qed.
(** No two directions are drawn at one place. *)
Theorem C84_injective pr u v u' v' : (0 <= u <= PI / 2 -> 0 <= u' <= PI / 2 -> 0 <= v < 2 * PI -> 0 <= v' < 2 * PI ->
  plane pr u v = plane pr u' v' -> u = u' /\ (u = 0 \/ v = v'))%R.
Proof.
  intros H H' V V' E. pose proof PI_RGT_0 as P.
  assert (R1 : exists r r', plane pr u v = (r * cos v, r * sin v)%R /\ plane pr u' v' = (r' * cos v', r' * sin v')%R /\ (0 <= r)%R /\ (0 <= r')%R /\
     (r = r' -> u = u') /\ (u <> 0 -> r <> 0)%R).
  { pose proof (half_cos u H) as K. pose proof (half_sin u H) as K1. pose proof (half_cos u' H') as K'. pose proof (half_sin u' H') as K1'.
    assert (SN : (u <> 0 -> 0 < sin (1 / 2 * u))%R) by (intros; apply sin_gt_0; lra).
    destruct pr.
    - exists (tan (1 / 2 * u)), (tan (1 / 2 * u')). split; [reflexivity|]. split; [reflexivity|]. unfold tan.
      split; [apply Rdiv_le_0_compat; lra|]. split; [apply Rdiv_le_0_compat; lra|]. split.
      + intros Q. assert (A : (1 / 2 * u = 1 / 2 * u')%R).
        { rewrite <- (atan_tan (1 / 2 * u)), <- (atan_tan (1 / 2 * u')) by lra. unfold tan. now rewrite Q. } lra.
      + intros N. apply SN in N. apply Rgt_not_eq. apply Rdiv_lt_0_compat; lra.
    - assert (Q2 : (0 < sqrt 2)%R) by (apply sqrt_lt_R0; lra).
      exists (sqrt 2 * sin (1 / 2 * u))%R, (sqrt 2 * sin (1 / 2 * u'))%R. split; [reflexivity|]. split; [reflexivity|].
      split; [nra|]. split; [nra|]. split.
      + intros Q. apply Rmult_eq_reg_l in Q; [|lra]. assert (A : (1 / 2 * u = 1 / 2 * u')%R).
        { rewrite <- (asin_sin (1 / 2 * u)), <- (asin_sin (1 / 2 * u')) by lra. now rewrite Q. } lra.
      + intros N. apply SN in N. nra. }
  destruct R1 as (r & r' & E1 & E2 & P1 & P2 & I & N). rewrite E1, E2 in E. injection E as X Y.
  pose proof (sin2_cos2 v) as A. pose proof (sin2_cos2 v') as B. unfold Rsqr in A, B.
  assert (RR : (r * r = r' * r')%R).
  { replace (r * r)%R with (r * cos v * (r * cos v) + r * sin v * (r * sin v))%R.
    - rewrite X, Y. replace (r' * cos v' * (r' * cos v') + r' * sin v' * (r' * sin v'))%R with (r' * r' * (sin v' * sin v' + cos v' * cos v'))%R by ring. rewrite B. ring.
    - replace (r * cos v * (r * cos v) + r * sin v * (r * sin v))%R with (r * r * (sin v * sin v + cos v * cos v))%R by ring. rewrite A. ring. }
  assert (RE : r = r') by nra. split; [auto|]. destruct (Req_dec u 0) as [Z|Z]; [now left|right]. specialize (N Z). subst r'.
  apply Rmult_eq_reg_l in X; [|exact N]. apply Rmult_eq_reg_l in Y; [|exact N].
  (* equal cosine and sine in [0, 2 PI) *)
  assert (C1 : (cos (v - v') = 1)%R) by (rewrite cos_minus, X, Y; lra).
  destruct (Rle_lt_dec v v') as [L|L].
  - destruct (Req_dec v v') as [|D]; [assumption|]. exfalso.
    assert (Hh : (sin ((v' - v) / 2) <> 0)%R) by (apply Rgt_not_eq, sin_gt_0; lra).
    replace (v - v')%R with (- (2 * ((v' - v) / 2)))%R in C1 by field. rewrite cos_neg, cos_2a_sin in C1. nra.
  - exfalso. assert (Hh : (sin ((v - v') / 2) <> 0)%R) by (apply Rgt_not_eq, sin_gt_0; lra).
    replace (v - v')%R with (2 * ((v - v') / 2))%R in C1 by field. rewrite cos_2a_sin in C1. nra.
Qed.
(** Lambert's map: a patch of the sphere (area sin u du dv) keeps half of its
    area everywhere. *)
Theorem C84_equal_area u v : exists xu xv yu yv,
  is_derive (fun u => fst (plane Eqar u v)) u xu /\ is_derive (fun v => fst (plane Eqar u v)) v xv /\
  is_derive (fun u => snd (plane Eqar u v)) u yu /\ is_derive (fun v => snd (plane Eqar u v)) v yv /\
  (xu * yv - xv * yu = sin u / 2)%R.
Proof.
  exists (sqrt 2 * (cos (1 / 2 * u) / 2) * cos v)%R, (- (sqrt 2 * sin (1 / 2 * u) * sin v))%R,
         (sqrt 2 * (cos (1 / 2 * u) / 2) * sin v)%R, (sqrt 2 * sin (1 / 2 * u) * cos v)%R.
  cbn [plane fst snd].
  split; [auto_derive; [exact I|field]|]. split; [auto_derive; [exact I|ring]|]. split; [auto_derive; [exact I|field]|]. split; [auto_derive; [exact I|ring]|].
  rewrite (sin_double u). pose proof (sin2_cos2 v) as V. unfold Rsqr in V.
  replace (sqrt 2 * (cos (1 / 2 * u) / 2) * cos v * (sqrt 2 * sin (1 / 2 * u) * cos v) - - (sqrt 2 * sin (1 / 2 * u) * sin v) * (sqrt 2 * (cos (1 / 2 * u) / 2) * sin v))%R
    with ((sqrt 2 * sqrt 2) * (cos (1 / 2 * u) / 2) * sin (1 / 2 * u) * (sin v * sin v + cos v * cos v))%R by field.
  rewrite V, sqrt_sqrt by lra. field.
Qed.
(** The stereographic map keeps angles: steps along the meridian and along the
    parallel (length sin u dv) stay perpendicular and are stretched alike. *)
Theorem C84_conformal u v : (0 <= u <= PI / 2)%R -> exists xu xv yu yv,
  is_derive (fun u => fst (plane Stereo u v)) u xu /\ is_derive (fun v => fst (plane Stereo u v)) v xv /\
  is_derive (fun u => snd (plane Stereo u v)) u yu /\ is_derive (fun v => snd (plane Stereo u v)) v yv /\
  (xu * xv + yu * yv = 0 /\ (xv * xv + yv * yv) = (xu * xu + yu * yu) * (sin u * sin u) /\ 0 < xu * xu + yu * yu)%R.
Proof.
  intros H. pose proof (half_cos u H) as K.
  set (c := cos (1 / 2 * u)) in *. set (s := sin (1 / 2 * u)).
  pose proof (sin2_cos2 v) as V. pose proof (sin2_cos2 (1 / 2 * u)) as U. unfold Rsqr in U, V. fold c s in U.
  exists (/ (2 * (c * c)) * cos v)%R, (- (s / c * sin v))%R, (/ (2 * (c * c)) * sin v)%R, (s / c * cos v)%R.
  cbn [plane fst snd].
  assert (T : is_derive (fun u => tan (1 / 2 * u)) u (/ (2 * (c * c)))%R).
  { unfold tan. auto_derive; [fold c; lra|]. fold c s. replace (1 + 1 + 0)%R with 2%R by ring.
    apply Rmult_eq_reg_r with (2 * (c * c))%R; [|nra]. field_simplify; [|lra|lra]. nra. }
  split; [|split; [|split; [|split; [|split; [|split]]]]].
  - change (is_derive (fun u => scal (tan (1 / 2 * u)) (cos v)) u (scal (/ (2 * (c * c))) (cos v))%R). apply @is_derive_scal_l. exact T.
  - auto_derive; [exact I|]. unfold tan. fold c s. field. lra.
  - change (is_derive (fun u => scal (tan (1 / 2 * u)) (sin v)) u (scal (/ (2 * (c * c))) (sin v))%R). apply @is_derive_scal_l. exact T.
  - auto_derive; [exact I|]. unfold tan. fold c s. field. lra.
  - field. lra.
  - rewrite (sin_double u). fold c s.
    replace (- (s / c * sin v) * - (s / c * sin v) + s / c * cos v * (s / c * cos v))%R with (s / c * (s / c) * (sin v * sin v + cos v * cos v))%R by ring.
    replace (/ (2 * (c * c)) * cos v * (/ (2 * (c * c)) * cos v) + / (2 * (c * c)) * sin v * (/ (2 * (c * c)) * sin v))%R
      with (/ (2 * (c * c)) * / (2 * (c * c)) * (sin v * sin v + cos v * cos v))%R by ring.
    rewrite V. field. lra.
  - replace (/ (2 * (c * c)) * cos v * (/ (2 * (c * c)) * cos v) + / (2 * (c * c)) * sin v * (/ (2 * (c * c)) * sin v))%R
      with (/ (2 * (c * c)) * / (2 * (c * c)) * (sin v * sin v + cos v * cos v))%R by ring.
    rewrite V, Rmult_1_r. assert (0 < / (2 * (c * c)))%R by (apply Rinv_0_lt_compat; nra). nra.
Qed.

Print Assumptions C84_disc.
Print Assumptions C84_injective.
Print Assumptions C84_equal_area.
Print Assumptions C84_conformal.
