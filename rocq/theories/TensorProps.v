(** Properties C28, C30, C31, C32. *)
From Coq Require Import Reals List Lra Lia Arith Psatz.
From Verif Require Import SymmetryModel TensorModel.
Import ListNotations.
Open Scope R_scope.

(** ** Specification vocabulary *)
Definition delta (i j : nat) : R := if (i =? j)%nat then 1 else 0.
Definition dot (u v : vec) : R := u 0%nat * v 0%nat + u 1%nat * v 1%nat + u 2%nat * v 2%nat.
Definition sum_3 (f : nat -> R) : R := f 0%nat + f 1%nat + f 2%nat.
Definition mul6 (A B : mat6) (p r : nat) : R :=
  A p 0%nat * B 0%nat r + A p 1%nat * B 1%nat r + A p 2%nat * B 2%nat r +
  A p 3%nat * B 3%nat r + A p 4%nat * B 4%nat r + A p 5%nat * B 5%nat r.
Definition inverse6 (C S : mat6) : Prop :=
  forall p r, (p < 6)%nat -> (r < 6)%nat -> mul6 C S p r = delta p r /\ mul6 S C p r = delta p r.
Definition symmetric6 (C : mat6) : Prop := forall p q, (p < 6)%nat -> (q < 6)%nat -> C p q = C q p.
(** Voigt's convention, written out: stresses sigma_xx, yy, zz, yz, xz, xy and
    engineering strains e_xx, e_yy, e_zz, 2 e_yz, 2 e_xz, 2 e_xy. *)
Definition tensor2 := nat -> nat -> R.
Definition voigt_stress (t : tensor2) (p : nat) : R :=
  match p with 0 => t 0 0 | 1 => t 1 1 | 2 => t 2 2 | 3 => t 1 2 | 4 => t 0 2 | _ => t 0 1 end%nat.
Definition voigt_strain (t : tensor2) (p : nat) : R :=
  match p with
  | 0%nat => t 0%nat 0%nat | 1%nat => t 1%nat 1%nat | 2%nat => t 2%nat 2%nat
  | 3%nat => 2 * t 1%nat 2%nat | 4%nat => 2 * t 0%nat 2%nat | _ => 2 * t 0%nat 1%nat end.
Definition apply6 (A : mat6) (x : nat -> R) (p : nat) : R :=
  A p 0%nat * x 0%nat + A p 1%nat * x 1%nat + A p 2%nat * x 2%nat +
  A p 3%nat * x 3%nat + A p 4%nat * x 4%nat + A p 5%nat * x 5%nat.
Definition contract (T : tensor4) (t : tensor2) (i j : nat) : R :=
  sum_3 (fun k => sum_3 (fun l => T i j k l * t k l)).
Definition symmetric2 (t : tensor2) : Prop := forall i j, (i < 3)%nat -> (j < 3)%nat -> t i j = t j i.

Ltac idx i := destruct i as [|[|[|i]]]; [| | |exfalso; lia].

Lemma vm_sym i j : (i < 3)%nat -> (j < 3)%nat -> vm i j = vm j i.
Proof. intros. idx i; idx j; reflexivity. Qed.
Lemma vm_lt i j : (i < 3)%nat -> (j < 3)%nat -> (vm i j < 6)%nat.
Proof. intros. idx i; idx j; compute; lia. Qed.

(** ** C28 *)
Theorem C28_minor_symmetries C S i j k l :
  (i < 3)%nat -> (j < 3)%nat -> (k < 3)%nat -> (l < 3)%nat ->
  C_ijkl C i j k l = C_ijkl C j i k l /\ C_ijkl C i j k l = C_ijkl C i j l k /\
  S_ijkl S i j k l = S_ijkl S j i k l /\ S_ijkl S i j k l = S_ijkl S i j l k.
Proof. intros. unfold C_ijkl, S_ijkl. rewrite (vm_sym j i), (vm_sym l k) by assumption. auto. Qed.
Theorem C28_major_symmetry C S i j k l :
  symmetric6 C -> symmetric6 S ->
  (i < 3)%nat -> (j < 3)%nat -> (k < 3)%nat -> (l < 3)%nat ->
  C_ijkl C i j k l = C_ijkl C k l i j /\ S_ijkl S i j k l = S_ijkl S k l i j.
Proof.
  intros HC HS Hi Hj Hk Hl. unfold C_ijkl, S_ijkl.
  rewrite (HC (vm i j)), (HS (vm i j)) by (apply vm_lt; assumption). split; [reflexivity|].
  unfold sc. rewrite (Rmult_comm (1 + INR (vm i j / 3))). reflexivity.
Qed.
(** Hooke's law in tensor form is Hooke's law in Voigt form. *)
Theorem C28_hooke C t i j :
  symmetric2 t -> (i < 3)%nat -> (j < 3)%nat ->
  contract (C_ijkl C) t i j = apply6 C (voigt_strain t) (vm i j).
Proof.
  intros S Hi Hj. unfold contract, C_ijkl, apply6, sum_3. unfold vm at 2 4 6 8 10 12 14 16 18. cbn [nth voigt_strain].
  rewrite (S 1%nat 0%nat), (S 2%nat 0%nat), (S 2%nat 1%nat) by lia. ring.
Qed.
Theorem C28_hooke_inverse S t p :
  symmetric2 t -> (p < 6)%nat ->
  voigt_strain (contract (S_ijkl S) t) p = apply6 S (voigt_stress t) p.
Proof.
  intros Y Hp. unfold contract, S_ijkl, apply6, sum_3, sc.
  destruct p as [|[|[|[|[|[|p]]]]]]; [| | | | | |lia]; cbn [voigt_strain voigt_stress vm nth]; simpl (INR _);
  rewrite (Y 1%nat 0%nat), (Y 2%nat 0%nat), (Y 2%nat 1%nat) by lia; field.
Qed.
(** C : S is the identity on symmetric tensors. *)
Theorem C28_contraction C S i j m n :
  inverse6 C S -> (i < 3)%nat -> (j < 3)%nat -> (m < 3)%nat -> (n < 3)%nat ->
  sum_3 (fun k => sum_3 (fun l => C_ijkl C i j k l * S_ijkl S k l m n)) =
  (delta i m * delta j n + delta i n * delta j m) / 2.
Proof.
  intros H Hi Hj Hm Hn.
  assert (E : sum_3 (fun k => sum_3 (fun l => C_ijkl C i j k l * S_ijkl S k l m n)) =
              mul6 C S (vm i j) (vm m n) / (1 + INR (vm m n / 3))).
  { unfold sum_3, C_ijkl, S_ijkl, mul6, sc. set (p := vm i j). set (r := vm m n). cbn [vm nth]. simpl (INR (_ / 3)).
    assert (1 + INR (r / 3) <> 0) by (pose proof (pos_INR (r / 3)); lra). field. assumption. }
  rewrite E. rewrite (proj1 (H (vm i j) (vm m n) (vm_lt _ _ Hi Hj) (vm_lt _ _ Hm Hn))).
  idx i; idx j; idx m; idx n; unfold delta; cbn; lra.
Qed.

(** ** C30 *)
Ltac trig t := let H := fresh "T" in pose proof (sin2_cos2 t) as H; unfold Rsqr in H.
Theorem C30_unit theta phi chi :
  dot (vector theta phi) (vector theta phi) = 1 /\
  dot (vector_chi theta phi chi) (vector_chi theta phi chi) = 1 /\
  dot (vector theta phi) (vector_chi theta phi chi) = 0.
Proof.
  trig theta; trig phi; trig chi. unfold dot, vector, vector_chi, vec3.
  set (st := sin theta) in *; set (ct := cos theta) in *; set (sf := sin phi) in *; set (cf := cos phi) in *;
  set (sx := sin chi) in *; set (cx := cos chi) in *.
  assert (st * st = 1 - ct * ct) by lra. assert (sf * sf = 1 - cf * cf) by lra. assert (sx * sx = 1 - cx * cx) by lra.
  repeat split; ring [H H0 H1].
Qed.
Definition opposite (u v : vec) : Prop := forall i, u i = - v i.
Theorem C30_antipodal theta phi chi :
  opposite (vector (PI - theta) (phi + PI)) (vector theta phi) /\
  opposite (vector_chi theta phi (chi + PI)) (vector_chi theta phi chi).
Proof.
  split; intros i; unfold vector, vector_chi, vec3; rewrite ?neg_sin, ?neg_cos, ?sin_PI_x, ?Rtrigo_facts.cos_pi_minus;
  destruct i as [|[|i]]; try ring.
Qed.
(** The half ranges scanned by the optimiser reach every direction up to sign,
    and every orthonormal pair up to signs. *)
Definition same (u v : vec) : Prop := u 0%nat = v 0%nat /\ u 1%nat = v 1%nat /\ u 2%nat = v 2%nat.
Definition up_to_sign (u v : vec) : Prop := same u v \/ same u (fun i => - v i).
Lemma circle_half x y : x * x + y * y = 1 -> 0 <= y -> exists t, 0 <= t <= PI /\ cos t = x /\ sin t = y.
Proof.
  intros H Hy. assert (Bx : -1 <= x <= 1) by nra. exists (acos x).
  split; [apply acos_bound|]. split; [apply cos_acos; exact Bx|].
  rewrite sin_acos by exact Bx. replace (1 - x²) with (y * y) by (unfold Rsqr; lra). now apply sqrt_square.
Qed.
Lemma reach_half u : dot u u = 1 -> 0 <= u 1%nat -> exists theta phi,
  0 <= theta <= PI /\ 0 <= phi <= PI /\ same (vector theta phi) u.
Proof.
  intros H Hy. unfold dot in H. set (x := u 0%nat) in *. set (y := u 1%nat) in *. set (z := u 2%nat) in *.
  set (r := sqrt (x * x + y * y)).
  assert (R2 : r * r = x * x + y * y) by (apply sqrt_sqrt; nra).
  assert (R0 : 0 <= r) by apply sqrt_pos.
  destruct (circle_half z r) as (theta & Bt & Ct & St); [lra|exact R0|].
  destruct (Req_dec r 0) as [Z|NZ].
  - exists theta, 0. split; [exact Bt|]. split; [pose proof PI_RGT_0; lra|].
    assert (x = 0) by nra. assert (y = 0) by nra.
    unfold same, vector, vec3. rewrite St, Ct, Z. fold x y z. repeat split; lra.
  - destruct (circle_half (x / r) (y / r)) as (phi & Bp & Cp & Sp).
    + replace (x / r * (x / r) + y / r * (y / r)) with ((x * x + y * y) / (r * r)) by (field; exact NZ). rewrite R2. field. rewrite <- R2. nra.
    + apply Rmult_le_pos; [exact Hy|]. left. apply Rinv_0_lt_compat. lra.
    + exists theta, phi. split; [exact Bt|split; [exact Bp|]].
      unfold same, vector, vec3. rewrite St, Ct, Cp, Sp. fold x y z. repeat split; field; exact NZ.
Qed.
Theorem C30_half_ranges_suffice u :
  dot u u = 1 -> exists theta phi, 0 <= theta <= PI /\ 0 <= phi <= PI /\ up_to_sign u (vector theta phi).
Proof.
  intros H. destruct (Rle_dec 0 (u 1%nat)) as [Hy|Hy].
  - destruct (reach_half u H Hy) as (t & p & A & B & (S1 & S2 & S3)). exists t, p. split; [exact A|split; [exact B|]].
    left. unfold same. auto.
  - destruct (reach_half (fun i => - u i)) as (t & p & A & B & (S1 & S2 & S3)).
    + unfold dot in *. lra.
    + lra.
    + exists t, p. split; [exact A|split; [exact B|]]. right. unfold same. lra.
Qed.
Lemma coplanar a b b' w x y z :
  (* b, b' complete a to an orthonormal basis; w is orthogonal to a *)
  dot a a = 1 -> dot a b = 0 -> dot a b' = 0 ->
  (forall i, (i < 3)%nat -> forall j, (j < 3)%nat -> a i * a j + b i * b j + b' i * b' j = delta i j) ->
  dot a w = 0 -> x = dot b w -> y = dot b' w -> z = 0 ->
  forall i, (i < 3)%nat -> w i = x * b i + y * b' i.
Proof.
  intros A AB AB' Comp AW -> -> _ i Hi.
  assert (E : forall i, (i < 3)%nat -> w i = a i * dot a w + b i * dot b w + b' i * dot b' w).
  { intros k Hk. pose proof (Comp k Hk 0%nat ltac:(lia)) as E0. pose proof (Comp k Hk 1%nat ltac:(lia)) as E1.
    pose proof (Comp k Hk 2%nat ltac:(lia)) as E2. unfold dot.
    replace (w k) with (delta k 0 * w 0%nat + delta k 1 * w 1%nat + delta k 2 * w 2%nat) by (idx k; unfold delta; cbn; ring).
    rewrite <- E0, <- E1, <- E2. ring. }
  rewrite (E i Hi), AW. ring.
Qed.
Lemma frame_complete theta phi i j : (i < 3)%nat -> (j < 3)%nat ->
  vector theta phi i * vector theta phi j + vector_chi theta phi 0 i * vector_chi theta phi 0 j +
  vector_chi theta phi (PI / 2) i * vector_chi theta phi (PI / 2) j = delta i j.
Proof.
  intros Hi Hj. trig theta; trig phi. unfold vector, vector_chi, vec3, delta. rewrite cos_0, sin_0, cos_PI2, sin_PI2.
  set (st := sin theta) in *; set (ct := cos theta) in *; set (sf := sin phi) in *; set (cf := cos phi) in *.
  assert (st * st = 1 - ct * ct) by lra. assert (sf * sf = 1 - cf * cf) by lra.
  idx i; idx j; cbn [Nat.eqb]; ring [H H0].
Qed.
Lemma chi_combination theta phi chi i : vector_chi theta phi chi i =
  cos chi * vector_chi theta phi 0 i + sin chi * vector_chi theta phi (PI / 2) i.
Proof. unfold vector_chi, vec3. rewrite cos_0, sin_0, cos_PI2, sin_PI2. destruct i as [|[|i]]; ring. Qed.
Theorem C30_half_ranges_reach_pairs u w :
  dot u u = 1 -> dot w w = 1 -> dot u w = 0 ->
  exists theta phi chi, 0 <= theta <= PI /\ 0 <= phi <= PI /\ 0 <= chi <= PI /\
    up_to_sign u (vector theta phi) /\ up_to_sign w (vector_chi theta phi chi).
Proof.
  intros Hu Hw Huw. destruct (C30_half_ranges_suffice u Hu) as (theta & phi & Bt & Bp & Su).
  assert (AW : dot (vector theta phi) w = 0).
  { unfold dot in *. destruct Su as [(S1 & S2 & S3)|(S1 & S2 & S3)].
    - rewrite <- S1, <- S2, <- S3. exact Huw.
    - rewrite S1, S2, S3 in Huw. lra. }
  set (a := vector theta phi) in *. set (b := vector_chi theta phi 0). set (b' := vector_chi theta phi (PI / 2)).
  destruct (C30_unit theta phi 0) as (AA & _ & AB). destruct (C30_unit theta phi (PI / 2)) as (_ & _ & AB').
  pose proof (coplanar a b b' w (dot b w) (dot b' w) 0 AA AB AB' (fun i Hi j Hj => frame_complete theta phi i j Hi Hj) AW eq_refl eq_refl eq_refl) as W.
  assert (N : dot b w * dot b w + dot b' w * dot b' w = 1).
  { assert (Q : dot w w = dot a w * dot a w + dot b w * dot b w + dot b' w * dot b' w).
    { pose proof (frame_complete theta phi) as F. fold a b b' in F.
      pose proof (F 0 0 ltac:(lia) ltac:(lia))%nat as F00. pose proof (F 1 1 ltac:(lia) ltac:(lia))%nat as F11.
      pose proof (F 2 2 ltac:(lia) ltac:(lia))%nat as F22. pose proof (F 0 1 ltac:(lia) ltac:(lia))%nat as F01.
      pose proof (F 0 2 ltac:(lia) ltac:(lia))%nat as F02. pose proof (F 1 2 ltac:(lia) ltac:(lia))%nat as F12.
      unfold delta in *. cbn [Nat.eqb] in *. unfold dot.
      replace (w 0%nat * w 0%nat + w 1%nat * w 1%nat + w 2%nat * w 2%nat) with
        ((1 * (w 0%nat * w 0%nat) + 1 * (w 1%nat * w 1%nat) + 1 * (w 2%nat * w 2%nat)) +
         2 * (0 * (w 0%nat * w 1%nat)) + 2 * (0 * (w 0%nat * w 2%nat)) + 2 * (0 * (w 1%nat * w 2%nat))) by ring.
      rewrite <- F00 at 1. rewrite <- F11 at 1. rewrite <- F22 at 1. rewrite <- F01 at 1. rewrite <- F02 at 1. rewrite <- F12 at 1. ring. }
    rewrite AW in Q. lra. }
  destruct (Rle_dec 0 (dot b' w)) as [P|P].
  - destruct (circle_half _ _ N P) as (chi & Bc & Cc & Sc). exists theta, phi, chi.
    split; [exact Bt|split; [exact Bp|split; [exact Bc|split; [exact Su|]]]]. left.
    unfold same. rewrite !(chi_combination theta phi chi). fold b b'. rewrite Cc, Sc. auto 10 using W with arith.
  - assert (N' : - dot b w * - dot b w + - dot b' w * - dot b' w = 1) by lra.
    destruct (circle_half _ _ N') as (chi & Bc & Cc & Sc); [lra|]. exists theta, phi, chi.
    split; [exact Bt|split; [exact Bp|split; [exact Bc|split; [exact Su|]]]]. right.
    unfold same. rewrite !(chi_combination theta phi chi). fold b b'. rewrite Cc, Sc.
    rewrite (W 0%nat), (W 1%nat), (W 2%nat) by lia. repeat split; ring.
Qed.

(** ** C31 *)
Definition w (p : nat) : R := match p with 0%nat | 1%nat | 2%nat => 1 | _ => / 2 end.
Lemma sc_w p q : (p < 6)%nat -> (q < 6)%nat -> sc p q = w p * w q.
Proof.
  intros. unfold sc.
  assert (F : forall p, (p < 6)%nat -> 1 + INR (p / 3) = / w p).
  { intros n Hn. do 6 (destruct n as [|n]; [cbn; field|]). lia. }
  rewrite !F by assumption. unfold Rdiv. rewrite Rmult_1_l, Rinv_mult, !Rinv_inv. reflexivity.
Qed.
Ltac open_S := unfold S_ijkl, vm; cbn [nth]; rewrite !sc_w by lia; cbn [w].
(** Reversing either direction. *)
Definition neg (u : vec) : vec := fun i => - u i.
Lemma loops_reverse T a b :
  loop_aaaa T (neg a) = loop_aaaa T a /\ loop_aakk T (neg a) = loop_aakk T a /\
  loop_abab T (neg a) b = loop_abab T a b /\ loop_abab T a (neg b) = loop_abab T a b /\
  loop_aabb T (neg a) b = loop_aabb T a b /\ loop_aabb T a (neg b) = loop_aabb T a b.
Proof.
  unfold loop_aaaa, loop_aakk, loop_abab, loop_aabb, sum3, neg. repeat split; ring.
Qed.
Lemma loops_ext T a a' b b' : (forall i, a i = a' i) -> (forall i, b i = b' i) ->
  loop_aaaa T a = loop_aaaa T a' /\ loop_aakk T a = loop_aakk T a' /\
  loop_abab T a b = loop_abab T a' b' /\ loop_aabb T a b = loop_aabb T a' b'.
Proof. intros A B. unfold loop_aaaa, loop_aakk, loop_abab, loop_aabb, sum3. rewrite !A, !B. auto. Qed.
(** In terms of the calls: the antipodal direction, and the opposite normal. *)
Lemma antipodal_vectors theta phi i : vector (PI - theta) (phi + PI) i = neg (vector theta phi) i.
Proof. apply C30_antipodal. exact 0. Qed.
Theorem C31_reversal S theta phi chi :
  young_modulus S (PI - theta) (phi + PI) = young_modulus S theta phi /\
  linear_compressibility S (PI - theta) (phi + PI) = linear_compressibility S theta phi /\
  shear_modulus S theta phi (chi + PI) = shear_modulus S theta phi chi /\
  poisson_ratio S theta phi (chi + PI) = poisson_ratio S theta phi chi /\
  shear_modulus S (PI - theta) (phi + PI) (- chi) = shear_modulus S theta phi chi /\
  poisson_ratio S (PI - theta) (phi + PI) (- chi) = poisson_ratio S theta phi chi.
Proof.
  set (T := S_ijkl S). set (a := vector theta phi). set (b := vector_chi theta phi chi).
  assert (E1 : forall i, vector (PI - theta) (phi + PI) i = neg a i) by (intros; apply antipodal_vectors).
  assert (E2 : forall i, vector_chi theta phi (chi + PI) i = neg b i) by (intros; apply C30_antipodal).
  assert (E3 : forall i, vector_chi (PI - theta) (phi + PI) (- chi) i = b i).
  { intros i. unfold b, vector_chi, vec3. rewrite neg_sin, neg_cos, sin_PI_x, Rtrigo_facts.cos_pi_minus, cos_neg, sin_neg.
    destruct i as [|[|i]]; ring. }
  destruct (loops_reverse T a b) as (R1 & R2 & R3 & R4 & R5 & R6).
  destruct (loops_ext T _ _ _ _ E1 E3) as (X1 & X2 & X3 & X4).
  destruct (loops_ext T a a _ _ (fun _ => eq_refl) E2) as (_ & _ & Y3 & Y4).
  unfold young_modulus, linear_compressibility, shear_modulus, poisson_ratio. fold T a b.
  rewrite X1, X2, X3, X4, Y3, Y4, R1, R2, R3, R4, R5, R6. auto 10.
Qed.
(** Exchanging the two directions (for Poisson's ratio: symmetric compliances). *)
Theorem C31_shear_exchange S a b :
  loop_abab (S_ijkl S) a b = loop_abab (S_ijkl S) b a.
Proof.
  unfold loop_abab, sum3. open_S. ring.
Qed.
Definition E_of (S : mat6) (a : vec) : R := 1 / loop_aaaa (S_ijkl S) a.
Definition nu_of (S : mat6) (a b : vec) : R := - loop_aabb (S_ijkl S) a b / loop_aaaa (S_ijkl S) a.
Theorem C31_poisson_reciprocity S a b :
  symmetric6 S -> loop_aaaa (S_ijkl S) a <> 0 -> loop_aaaa (S_ijkl S) b <> 0 ->
  nu_of S a b / E_of S a = nu_of S b a / E_of S b.
Proof.
  intros H Ha Hb.
  assert (X : loop_aabb (S_ijkl S) a b = loop_aabb (S_ijkl S) b a).
  { unfold loop_aabb, sum3. open_S.
    rewrite (H 1%nat 0%nat), (H 2%nat 0%nat), (H 3%nat 0%nat), (H 4%nat 0%nat), (H 5%nat 0%nat),
      (H 2%nat 1%nat), (H 3%nat 1%nat), (H 4%nat 1%nat), (H 5%nat 1%nat), (H 3%nat 2%nat), (H 4%nat 2%nat), (H 5%nat 2%nat),
      (H 4%nat 3%nat), (H 5%nat 3%nat), (H 5%nat 4%nat) by lia. ring. }
  unfold nu_of, E_of. rewrite X. field. auto.
Qed.
(** The code's values are those at its pair of axes. *)
Lemma code_values S theta phi chi :
  young_modulus S theta phi = E_of S (vector theta phi) /\
  poisson_ratio S theta phi chi = nu_of S (vector theta phi) (vector_chi theta phi chi).
Proof. split; reflexivity. Qed.

(** Three orthonormal directions: columns are orthonormal too. *)
Definition orthonormal3 (a b c : vec) : Prop :=
  dot a a = 1 /\ dot b b = 1 /\ dot c c = 1 /\ dot a b = 0 /\ dot a c = 0 /\ dot b c = 0.
Definition det3 (a b c : vec) : R :=
  a 0%nat * (b 1%nat * c 2%nat - b 2%nat * c 1%nat) - a 1%nat * (b 0%nat * c 2%nat - b 2%nat * c 0%nat)
  + a 2%nat * (b 0%nat * c 1%nat - b 1%nat * c 0%nat).
Lemma columns_orthonormal a b c : orthonormal3 a b c -> forall i j, (i < 3)%nat -> (j < 3)%nat ->
  a i * a j + b i * b j + c i * c j = delta i j.
Proof.
  intros (AA & BB & CC & AB & AC & BC).
  set (D := det3 a b c).
  assert (D2 : D * D = 1).
  { (* Gram determinant *)
    assert (G : D * D = dot a a * (dot b b * dot c c - dot b c * dot b c) - dot a b * (dot a b * dot c c - dot b c * dot a c)
               + dot a c * (dot a b * dot b c - dot b b * dot a c)) by (unfold D, det3, dot; ring).
    rewrite G, AA, BB, CC, AB, AC, BC. ring. }
  assert (DN : D <> 0) by (intros Z; rewrite Z in D2; lra).
  (* each row is the cross product of the other two, up to D *)
  assert (Ca : forall i, (i < 3)%nat -> vec3 (b 1%nat * c 2%nat - b 2%nat * c 1%nat) (b 2%nat * c 0%nat - b 0%nat * c 2%nat) (b 0%nat * c 1%nat - b 1%nat * c 0%nat) i = D * a i).
  { intros i Hi. idx i; unfold vec3.
    - transitivity (dot a a * (b 1%nat * c 2%nat - b 2%nat * c 1%nat) - dot a b * (a 1%nat * c 2%nat - a 2%nat * c 1%nat) + dot a c * (a 1%nat * b 2%nat - a 2%nat * b 1%nat)).
      + rewrite AA, AB, AC. ring.
      + unfold D, det3, dot. ring.
    - transitivity (dot a a * (b 2%nat * c 0%nat - b 0%nat * c 2%nat) - dot a b * (a 2%nat * c 0%nat - a 0%nat * c 2%nat) + dot a c * (a 2%nat * b 0%nat - a 0%nat * b 2%nat)).
      + rewrite AA, AB, AC. ring.
      + unfold D, det3, dot. ring.
    - transitivity (dot a a * (b 0%nat * c 1%nat - b 1%nat * c 0%nat) - dot a b * (a 0%nat * c 1%nat - a 1%nat * c 0%nat) + dot a c * (a 0%nat * b 1%nat - a 1%nat * b 0%nat)).
      + rewrite AA, AB, AC. ring.
      + unfold D, det3, dot. ring. }
  assert (Cb : forall i, (i < 3)%nat -> vec3 (c 1%nat * a 2%nat - c 2%nat * a 1%nat) (c 2%nat * a 0%nat - c 0%nat * a 2%nat) (c 0%nat * a 1%nat - c 1%nat * a 0%nat) i = D * b i).
  { intros i Hi. idx i; unfold vec3.
    - transitivity (dot b b * (c 1%nat * a 2%nat - c 2%nat * a 1%nat) - dot b c * (b 1%nat * a 2%nat - b 2%nat * a 1%nat) + dot a b * (b 1%nat * c 2%nat - b 2%nat * c 1%nat)).
      + rewrite BB, AB, BC. ring.
      + unfold D, det3, dot. ring.
    - transitivity (dot b b * (c 2%nat * a 0%nat - c 0%nat * a 2%nat) - dot b c * (b 2%nat * a 0%nat - b 0%nat * a 2%nat) + dot a b * (b 2%nat * c 0%nat - b 0%nat * c 2%nat)).
      + rewrite BB, AB, BC. ring.
      + unfold D, det3, dot. ring.
    - transitivity (dot b b * (c 0%nat * a 1%nat - c 1%nat * a 0%nat) - dot b c * (b 0%nat * a 1%nat - b 1%nat * a 0%nat) + dot a b * (b 0%nat * c 1%nat - b 1%nat * c 0%nat)).
      + rewrite BB, AB, BC. ring.
      + unfold D, det3, dot. ring. }
  assert (Cc : forall i, (i < 3)%nat -> vec3 (a 1%nat * b 2%nat - a 2%nat * b 1%nat) (a 2%nat * b 0%nat - a 0%nat * b 2%nat) (a 0%nat * b 1%nat - a 1%nat * b 0%nat) i = D * c i).
  { intros i Hi. idx i; unfold vec3.
    - transitivity (dot c c * (a 1%nat * b 2%nat - a 2%nat * b 1%nat) - dot a c * (c 1%nat * b 2%nat - c 2%nat * b 1%nat) + dot b c * (c 1%nat * a 2%nat - c 2%nat * a 1%nat)).
      + rewrite CC, AC, BC. ring.
      + unfold D, det3, dot. ring.
    - transitivity (dot c c * (a 2%nat * b 0%nat - a 0%nat * b 2%nat) - dot a c * (c 2%nat * b 0%nat - c 0%nat * b 2%nat) + dot b c * (c 2%nat * a 0%nat - c 0%nat * a 2%nat)).
      + rewrite CC, AC, BC. ring.
      + unfold D, det3, dot. ring.
    - transitivity (dot c c * (a 0%nat * b 1%nat - a 1%nat * b 0%nat) - dot a c * (c 0%nat * b 1%nat - c 1%nat * b 0%nat) + dot b c * (c 0%nat * a 1%nat - c 1%nat * a 0%nat)).
      + rewrite CC, AC, BC. ring.
      + unfold D, det3, dot. ring. }
  intros i j Hi Hj. apply Rmult_eq_reg_l with D; [|exact DN].
  transitivity (a j * (D * a i) + b j * (D * b i) + c j * (D * c i)); [ring|].
  rewrite <- (Ca i Hi), <- (Cb i Hi), <- (Cc i Hi).
  idx i; idx j; unfold vec3, delta; cbn [Nat.eqb]; unfold D, det3; ring.
Qed.
(** The linear compressibilities along any orthonormal axes add up to the
    compressibility of the Reuss average (both in TPa^-1). *)
Theorem C31_compressibilities_sum S a b c :
  orthonormal3 a b c -> KR S <> 0 ->
  1000 * loop_aakk (S_ijkl S) a + 1000 * loop_aakk (S_ijkl S) b + 1000 * loop_aakk (S_ijkl S) c = 1000 / KR S.
Proof.
  intros O NZ. pose proof (columns_orthonormal a b c O) as Co.
  assert (E : einsum_iijj (S_ijkl S) <> 0) by (intros Z; apply NZ; unfold KR; rewrite Z; unfold Rdiv; rewrite Rinv_0; ring).
  replace (1000 / KR S) with (1000 * einsum_iijj (S_ijkl S)) by (unfold KR; field; exact E).
  unfold loop_aakk, einsum_iijj, sum3. set (T := S_ijkl S).
  assert (TS : forall i j k, (i < 3)%nat -> (j < 3)%nat -> (k < 3)%nat -> T i j k k = T j i k k)
    by (intros; apply (C28_minor_symmetries S S); assumption).
  rewrite (TS 1 0 0)%nat, (TS 1 0 1)%nat, (TS 1 0 2)%nat, (TS 2 0 0)%nat, (TS 2 0 1)%nat, (TS 2 0 2)%nat,
    (TS 2 1 0)%nat, (TS 2 1 1)%nat, (TS 2 1 2)%nat by lia.
  set (t i j := T i j 0%nat 0%nat + T i j 1%nat 1%nat + T i j 2%nat 2%nat).
  transitivity (1000 * ((a 0%nat * a 0%nat + b 0%nat * b 0%nat + c 0%nat * c 0%nat) * t 0%nat 0%nat +
     (a 1%nat * a 1%nat + b 1%nat * b 1%nat + c 1%nat * c 1%nat) * t 1%nat 1%nat +
     (a 2%nat * a 2%nat + b 2%nat * b 2%nat + c 2%nat * c 2%nat) * t 2%nat 2%nat +
     2 * (a 0%nat * a 1%nat + b 0%nat * b 1%nat + c 0%nat * c 1%nat) * t 0%nat 1%nat +
     2 * (a 0%nat * a 2%nat + b 0%nat * b 2%nat + c 0%nat * c 2%nat) * t 0%nat 2%nat +
     2 * (a 1%nat * a 2%nat + b 1%nat * b 2%nat + c 1%nat * c 2%nat) * t 1%nat 2%nat)); [unfold t; ring|].
  rewrite !Co by lia. unfold delta. cbn [Nat.eqb]. unfold t. ring.
Qed.
(** Voigt stress of uniaxial tension along [a], and of shear on [a], [b]. *)
Definition uniaxial_stress (a : vec) : nat -> R := voigt_stress (fun i j => a i * a j).
Definition shear_stress (a b : vec) : nat -> R := voigt_stress (fun i j => a i * b j + a j * b i).
Definition energy (S : mat6) (s : nat -> R) : R :=
  s 0%nat * apply6 S s 0%nat + s 1%nat * apply6 S s 1%nat + s 2%nat * apply6 S s 2%nat +
  s 3%nat * apply6 S s 3%nat + s 4%nat * apply6 S s 4%nat + s 5%nat * apply6 S s 5%nat.
Definition nonzero6 (s : nat -> R) : Prop := exists p, (p < 6)%nat /\ s p <> 0.
Definition positive_definite (S : mat6) : Prop := forall s, nonzero6 s -> 0 < energy S s.
(** 1/E and 1/G are the strain energies of unit tension and unit shear. *)
Theorem C31_energies S a b :
  loop_aaaa (S_ijkl S) a = energy S (uniaxial_stress a) /\
  4 * loop_abab (S_ijkl S) a b = energy S (shear_stress a b).
Proof.
  unfold loop_aaaa, loop_abab, energy, uniaxial_stress, shear_stress, apply6, sum3. open_S. cbn [voigt_stress].
  split; field.
Qed.
Lemma uniaxial_nonzero a : dot a a = 1 -> nonzero6 (uniaxial_stress a).
Proof.
  unfold dot. intros H. destruct (Req_dec (a 0%nat) 0) as [Z|N].
  - destruct (Req_dec (a 1%nat) 0) as [Z1|N1].
    + exists 2%nat. split; [lia|]. unfold uniaxial_stress. cbn. rewrite Z, Z1 in H. nra.
    + exists 1%nat. split; [lia|]. unfold uniaxial_stress. cbn. nra.
  - exists 0%nat. split; [lia|]. unfold uniaxial_stress. cbn. nra.
Qed.
Lemma shear_nonzero a b : dot a a = 1 -> dot b b = 1 -> dot a b = 0 -> nonzero6 (shear_stress a b).
Proof.
  unfold dot. intros A B AB.
  destruct (Req_dec (shear_stress a b 0) 0) as [E0|N0]; [|exists 0%nat; split; [lia|exact N0]].
  destruct (Req_dec (shear_stress a b 1) 0) as [E1|N1]; [|exists 1%nat; split; [lia|exact N1]].
  destruct (Req_dec (shear_stress a b 2) 0) as [E2|N2]; [|exists 2%nat; split; [lia|exact N2]].
  destruct (Req_dec (shear_stress a b 3) 0) as [E3|N3]; [|exists 3%nat; split; [lia|exact N3]].
  destruct (Req_dec (shear_stress a b 4) 0) as [E4|N4]; [|exists 4%nat; split; [lia|exact N4]].
  destruct (Req_dec (shear_stress a b 5) 0) as [E5|N5]; [|exists 5%nat; split; [lia|exact N5]].
  exfalso. unfold shear_stress, voigt_stress in *.
  (* |a b^T + b a^T|^2 = 2 |a|^2 |b|^2 + 2 (a.b)^2 *)
  assert (2 * ((a 0%nat * a 0%nat + a 1%nat * a 1%nat + a 2%nat * a 2%nat) * (b 0%nat * b 0%nat + b 1%nat * b 1%nat + b 2%nat * b 2%nat)) +
    2 * ((a 0%nat * b 0%nat + a 1%nat * b 1%nat + a 2%nat * b 2%nat) * (a 0%nat * b 0%nat + a 1%nat * b 1%nat + a 2%nat * b 2%nat)) =
    (a 0%nat * b 0%nat + a 0%nat * b 0%nat) ^ 2 + (a 1%nat * b 1%nat + a 1%nat * b 1%nat) ^ 2 + (a 2%nat * b 2%nat + a 2%nat * b 2%nat) ^ 2 +
    2 * (a 1%nat * b 2%nat + a 2%nat * b 1%nat) ^ 2 + 2 * (a 0%nat * b 2%nat + a 2%nat * b 0%nat) ^ 2 + 2 * (a 0%nat * b 1%nat + a 1%nat * b 0%nat) ^ 2) by ring.
  rewrite A, B, AB, E0, E1, E2, E3, E4, E5 in H. lra.
Qed.
(** Mechanically stable crystals have positive Young and shear moduli everywhere. *)
Theorem C31_positive S theta phi chi :
  positive_definite S -> 0 < young_modulus S theta phi /\ 0 < shear_modulus S theta phi chi.
Proof.
  intros P. destruct (C30_unit theta phi chi) as (A & B & AB).
  unfold young_modulus, shear_modulus.
  rewrite (proj1 (C31_energies S (vector theta phi) (vector theta phi))), (proj2 (C31_energies S (vector theta phi) (vector_chi theta phi chi))).
  split; apply Rdiv_lt_0_compat; try lra; apply P; [now apply uniaxial_nonzero|now apply shear_nonzero].
Qed.

(** ** C32 *)
Definition orthorhombic_form (S : mat6) : Prop :=
  symmetric6 S /\ forall p q, (p < q < 6)%nat -> (3 <= q)%nat -> S p q = 0.
Ltac ortho_zero H Z :=
  open_S;
  rewrite ?(H 1%nat 0%nat), ?(H 2%nat 0%nat), ?(H 3%nat 0%nat), ?(H 4%nat 0%nat), ?(H 5%nat 0%nat),
      ?(H 2%nat 1%nat), ?(H 3%nat 1%nat), ?(H 4%nat 1%nat), ?(H 5%nat 1%nat), ?(H 3%nat 2%nat), ?(H 4%nat 2%nat), ?(H 5%nat 2%nat),
      ?(H 4%nat 3%nat), ?(H 5%nat 3%nat), ?(H 5%nat 4%nat) by lia;
  rewrite ?(Z 0 3)%nat, ?(Z 0 4)%nat, ?(Z 0 5)%nat, ?(Z 1 3)%nat, ?(Z 1 4)%nat, ?(Z 1 5)%nat,
      ?(Z 2 3)%nat, ?(Z 2 4)%nat, ?(Z 2 5)%nat, ?(Z 3 4)%nat, ?(Z 3 5)%nat, ?(Z 4 5)%nat by lia.
Ltac trig_vars theta phi chi :=
  let T1 := fresh in let T2 := fresh in let T3 := fresh in
  pose proof (sin2_cos2 theta) as T1; pose proof (sin2_cos2 phi) as T2; pose proof (sin2_cos2 chi) as T3; unfold Rsqr in *;
  set (st := sin theta) in *; set (ct := cos theta) in *; set (sf := sin phi) in *; set (cf := cos phi) in *;
  set (sx := sin chi) in *; set (cx := cos chi) in *;
  assert (ST : st * st = 1 - ct * ct) by lra; assert (SF : sf * sf = 1 - cf * cf) by lra; assert (SX : sx * sx = 1 - cx * cx) by lra;
  clear T1 T2 T3; clearbody st ct sf cf sx cx.
Theorem C32_young S theta phi : orthorhombic_form S ->
  ortho_young (S_ijkl S) theta phi = young_modulus S theta phi.
Proof.
  intros (H & Z). unfold ortho_young, young_modulus. f_equal.
  unfold loop_aaaa, sum3, vector, vec3. ortho_zero H Z. trig_vars theta phi 0.
  field [ST SF].
Qed.
Theorem C32_linear_compressibility S theta phi : orthorhombic_form S ->
  ortho_compressibility (S_ijkl S) theta phi = linear_compressibility S theta phi.
Proof.
  intros (H & Z). unfold ortho_compressibility, linear_compressibility. f_equal.
  unfold loop_aakk, sum3, vector, vec3. ortho_zero H Z. trig_vars theta phi 0.
  field [ST SF].
Qed.
Theorem C32_shear S theta phi chi : orthorhombic_form S ->
  ortho_shear (S_ijkl S) theta phi chi = shear_modulus S theta phi chi.
Proof.
  intros (H & Z). unfold ortho_shear, shear_modulus. f_equal.
  unfold loop_abab, sum3, vector, vector_chi, vec3. ortho_zero H Z. trig_vars theta phi chi.
  field [ST SF SX].
Qed.
Theorem C32_poisson S theta phi chi : orthorhombic_form S ->
  ortho_poisson (S_ijkl S) theta phi chi = poisson_ratio S theta phi chi.
Proof.
  intros (H & Z). unfold ortho_poisson, poisson_ratio. f_equal.
  - unfold loop_aabb, sum3, vector, vector_chi, vec3. ortho_zero H Z. trig_vars theta phi chi.
    field [ST SF SX].
  - unfold loop_aaaa, sum3, vector, vec3. ortho_zero H Z. trig_vars theta phi chi.
    field [ST SF].
Qed.
(** A crystal of orthorhombic form that is not isotropic. *)
Definition ortho_sample : mat6 := fun p q =>
  if (p =? q)%nat then INR (p + 1) else if ((p <? 3) && (q <? 3))%nat%bool then - / 4 else 0.
Example C32_instance : orthorhombic_form ortho_sample /\
  ortho_young (S_ijkl ortho_sample) 0 0 = 1 / 3 /\ ortho_young (S_ijkl ortho_sample) (PI / 2) 0 = 1.
Proof.
  split; [|split].
  - split.
    + intros p q _ _. unfold ortho_sample. rewrite (Nat.eqb_sym q p), (Bool.andb_comm (q <? 3)%nat).
      destruct (Nat.eqb_spec p q); [now subst|reflexivity].
    + intros p q H1 H2. unfold ortho_sample. destruct (Nat.eqb_spec p q); [lia|].
      destruct (Nat.ltb_spec q 3); [lia|]. now rewrite Bool.andb_false_r.
  - unfold ortho_young. rewrite cos_0. open_S. unfold ortho_sample. simpl. f_equal. field.
  - unfold ortho_young. rewrite cos_PI2, cos_0. open_S. unfold ortho_sample. simpl. field.
Qed.
(** The fast path is used on matrices that are orthorhombic only within the
    tolerance: a coupling entry below it is dropped. *)
Theorem C32_tolerance_refuted :
  exists S theta phi, symmetric6 S /\ (forall p q, (p < q < 6)%nat -> (3 <= q)%nat -> Rabs (S p q) <= 1 / 1000) /\
    ortho_young (S_ijkl S) theta phi <> young_modulus S theta phi.
Proof.
  exists (fun p q => if (p =? q)%nat then 1 else if ((p =? 0) && (q =? 5) || (p =? 5) && (q =? 0))%nat%bool then 1 / 1000 else 0), (PI / 2), (PI / 4).
  split; [|split].
  - intros p q _ _. rewrite (Nat.eqb_sym q p), Bool.orb_comm, (Bool.andb_comm (p =? 5)%nat), (Bool.andb_comm (p =? 0)%nat).
    reflexivity.
  - intros p q H1 H2. destruct (Nat.eqb_spec p q); [lia|].
    destruct ((p =? 0) && (q =? 5) || (p =? 5) && (q =? 0))%nat%bool; [rewrite Rabs_right; lra|rewrite Rabs_R0; lra].
  - unfold ortho_young, young_modulus, loop_aaaa, sum3, vector, vec3. open_S. cbn [Nat.eqb andb orb].
    rewrite cos_PI2, sin_PI2, cos_PI4, sin_PI4.
    assert (Q : (1 / sqrt 2) ^ 2 = 1 / 2).
    { unfold Rdiv. rewrite Rmult_1_l, pow_inv. simpl. rewrite Rmult_1_r, sqrt_sqrt by lra. lra. }
    set (q := 1 / sqrt 2) in *. intros E.
    assert (Q4 : q ^ 4 = 1 / 4) by (replace (q ^ 4) with ((q ^ 2) * (q ^ 2)) by ring; rewrite Q; lra).
    apply (f_equal Rinv) in E. unfold Rdiv in E. rewrite !Rmult_1_l, !Rinv_inv in E.
    lra.
Qed.
Example C31_instance : positive_definite (fun p q => if (p =? q)%nat then 1 else 0).
Proof.
  intros s (p & Hp & Np). unfold energy, apply6. cbn [Nat.eqb].
  pose proof (Rle_0_sqr (s 0%nat)). pose proof (Rle_0_sqr (s 1%nat)). pose proof (Rle_0_sqr (s 2%nat)).
  pose proof (Rle_0_sqr (s 3%nat)). pose proof (Rle_0_sqr (s 4%nat)). pose proof (Rle_0_sqr (s 5%nat)).
  assert (0 < Rsqr (s p)) by now apply Rsqr_pos_lt. unfold Rsqr in *.
  do 6 (destruct p as [|p]; [lra|]). lia.
Qed.
Example C28_instance : inverse6 (fun p q => if (p =? q)%nat then 2 else 0) (fun p q => if (p =? q)%nat then / 2 else 0).
Proof.
  intros p r Hp Hr. unfold mul6, delta.
  do 6 (destruct p as [|p]; [do 6 (destruct r as [|r]; [cbn; lra|]); lia|]). lia.
Qed.

Print Assumptions C28_contraction.
Print Assumptions C30_half_ranges_reach_pairs.
Print Assumptions C31_compressibilities_sum.
Print Assumptions C32_poisson.
