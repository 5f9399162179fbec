(** Property C29: Voigt-Reuss-Hill averages and isotropic crystals. *)
From Coq Require Import Reals List Lra Lia Arith Psatz.
From Verif Require Import SymmetryModel TensorModel TensorProps.
Import ListNotations.
Open Scope R_scope.

Definition dot6 (x y : nat -> R) : R :=
  x 0%nat * y 0%nat + x 1%nat * y 1%nat + x 2%nat * y 2%nat + x 3%nat * y 3%nat + x 4%nat * y 4%nat + x 5%nat * y 5%nat.
Lemma energy_dot C x : energy C x = dot6 x (apply6 C x).
Proof. reflexivity. Qed.

Lemma apply_inverse C S y p : inverse6 C S -> (p < 6)%nat -> apply6 C (apply6 S y) p = y p.
Proof.
  intros H Hp.
  assert (E : apply6 C (apply6 S y) p =
    mul6 C S p 0%nat * y 0%nat + mul6 C S p 1%nat * y 1%nat + mul6 C S p 2%nat * y 2%nat +
    mul6 C S p 3%nat * y 3%nat + mul6 C S p 4%nat * y 4%nat + mul6 C S p 5%nat * y 5%nat) by (unfold apply6, mul6; ring).
  rewrite E, !(fun r Hr => proj1 (H p r Hp Hr)) by lia. unfold delta.
  do 6 (destruct p as [|p]; [cbn [Nat.eqb]; ring|]). lia.
Qed.
Lemma bilinear_sym C x z : symmetric6 C -> dot6 z (apply6 C x) = dot6 x (apply6 C z).
Proof.
  intros H. unfold dot6, apply6.
  rewrite (H 1%nat 0%nat), (H 2%nat 0%nat), (H 3%nat 0%nat), (H 4%nat 0%nat), (H 5%nat 0%nat),
      (H 2%nat 1%nat), (H 3%nat 1%nat), (H 4%nat 1%nat), (H 5%nat 1%nat), (H 3%nat 2%nat), (H 4%nat 2%nat), (H 5%nat 2%nat),
      (H 4%nat 3%nat), (H 5%nat 3%nat), (H 5%nat 4%nat) by lia. ring.
Qed.
Lemma energy_shift C x z t : symmetric6 C ->
  energy C (fun p => x p - t * z p) = energy C x - 2 * t * dot6 x (apply6 C z) + t * t * energy C z.
Proof.
  intros H. rewrite !energy_dot.
  assert (E : dot6 (fun p => x p - t * z p) (apply6 C (fun p => x p - t * z p)) =
    dot6 x (apply6 C x) - t * dot6 x (apply6 C z) - t * dot6 z (apply6 C x) + t * t * dot6 z (apply6 C z))
    by (unfold dot6, apply6; ring).
  rewrite E, (bilinear_sym C x z H). ring.
Qed.
Lemma energy_nonneg C x : positive_definite C -> 0 <= energy C x.
Proof.
  intros P. destruct (Req_dec (x 0%nat) 0) as [E0|N]; [|left; apply P; exists 0%nat; split; [lia|exact N]].
  destruct (Req_dec (x 1%nat) 0) as [E1|N]; [|left; apply P; exists 1%nat; split; [lia|exact N]].
  destruct (Req_dec (x 2%nat) 0) as [E2|N]; [|left; apply P; exists 2%nat; split; [lia|exact N]].
  destruct (Req_dec (x 3%nat) 0) as [E3|N]; [|left; apply P; exists 3%nat; split; [lia|exact N]].
  destruct (Req_dec (x 4%nat) 0) as [E4|N]; [|left; apply P; exists 4%nat; split; [lia|exact N]].
  destruct (Req_dec (x 5%nat) 0) as [E5|N]; [|left; apply P; exists 5%nat; split; [lia|exact N]].
  right. unfold energy. rewrite E0, E1, E2, E3, E4, E5. ring.
Qed.
Lemma inverse_positive C S y : positive_definite C -> inverse6 C S -> nonzero6 y -> 0 < energy S y.
Proof.
  intros P I (q & Hq & Nq). set (z := apply6 S y).
  assert (E : energy S y = energy C z).
  { rewrite !energy_dot. fold z. unfold dot6 at 2. rewrite !(apply_inverse C S y) by (auto; lia). unfold dot6. ring. }
  rewrite E. apply P.
  destruct (Req_dec (z 0%nat) 0) as [E0|N]; [|exists 0%nat; split; [lia|exact N]].
  destruct (Req_dec (z 1%nat) 0) as [E1|N]; [|exists 1%nat; split; [lia|exact N]].
  destruct (Req_dec (z 2%nat) 0) as [E2|N]; [|exists 2%nat; split; [lia|exact N]].
  destruct (Req_dec (z 3%nat) 0) as [E3|N]; [|exists 3%nat; split; [lia|exact N]].
  destruct (Req_dec (z 4%nat) 0) as [E4|N]; [|exists 4%nat; split; [lia|exact N]].
  destruct (Req_dec (z 5%nat) 0) as [E5|N]; [|exists 5%nat; split; [lia|exact N]].
  exfalso. apply Nq. rewrite <- (apply_inverse C S y q I Hq). fold z. unfold apply6. rewrite E0, E1, E2, E3, E4, E5. ring.
Qed.
(** Duality: the energies of a strain and of a stress bound their work. *)
Lemma duality C S x y : symmetric6 C -> positive_definite C -> inverse6 C S -> nonzero6 y ->
  dot6 x y * dot6 x y <= energy C x * energy S y.
Proof.
  intros H P I Ny. set (z := apply6 S y).
  assert (Cz : forall p, (p < 6)%nat -> apply6 C z p = y p) by (intros; now apply apply_inverse).
  assert (D : energy C z = energy S y).
  { rewrite !energy_dot. fold z. unfold dot6 at 1. rewrite !Cz by lia. unfold dot6. ring. }
  assert (B : dot6 x (apply6 C z) = dot6 x y) by (unfold dot6; rewrite !Cz by lia; reflexivity).
  pose proof (inverse_positive C S y P I Ny) as Pos.
  set (b := dot6 x y) in *. set (d := energy S y) in *.
  pose proof (energy_nonneg C (fun p => x p - b / d * z p) P) as Q.
  rewrite energy_shift, B, D in Q by exact H.
  replace (energy C x - 2 * (b / d) * b + b / d * (b / d) * d) with (energy C x - b * b / d) in Q by (field; lra).
  assert (E : b * b = b * b / d * d) by (field; lra). rewrite E. apply Rmult_le_compat_r; lra.
Qed.

(** Unit vectors of the volumetric and of the five deviatoric modes. *)
Definition v6 (a b c d e f : R) : nat -> R := fun p =>
  match p with 0%nat => a | 1%nat => b | 2%nat => c | 3%nat => d | 4%nat => e | _ => f end.
Lemma v6_nonzero a b c d e f : a <> 0 \/ b <> 0 \/ c <> 0 \/ d <> 0 \/ e <> 0 \/ f <> 0 -> nonzero6 (v6 a b c d e f).
Proof.
  intros [N|[N|[N|[N|[N|N]]]]]; [exists 0%nat|exists 1%nat|exists 2%nat|exists 3%nat|exists 4%nat|exists 5%nat]; (split; [lia|exact N]).
Qed.
Lemma sum_of_inverses (a b c d : R) : 0 < a -> 0 < c -> 1 <= a * b -> 1 <= c * d -> 2 <= a * d + c * b.
Proof.
  intros Ha Hc H1 H2.
  assert (/ a <= b) by (apply Rmult_le_reg_l with a; [exact Ha|]; rewrite Rinv_r by lra; lra).
  assert (/ c <= d) by (apply Rmult_le_reg_l with c; [exact Hc|]; rewrite Rinv_r by lra; lra).
  assert (A : a * / c + c * / a - 2 = (a - c) * (a - c) * (/ a * / c)) by (field; lra).
  assert (0 <= (a - c) * (a - c) * (/ a * / c)).
  { apply Rmult_le_pos; [apply Rle_0_sqr|]. left. apply Rmult_lt_0_compat; now apply Rinv_0_lt_compat. }
  assert (a * / c <= a * d) by (apply Rmult_le_compat_l; lra).
  assert (c * / a <= c * b) by (apply Rmult_le_compat_l; lra). lra.
Qed.

Lemma inverse_unique C S S' : inverse6 C S -> (forall p r, (p < 6)%nat -> (r < 6)%nat -> mul6 S' C p r = delta p r) ->
  forall p r, (p < 6)%nat -> (r < 6)%nat -> S p r = S' p r.
Proof.
  intros H L p r Hp Hr.
  assert (A : mul6 (mul6 S' C) S p r = mul6 S' (mul6 C S) p r) by (unfold mul6; ring).
  assert (B : mul6 (mul6 S' C) S p r = S p r).
  { unfold mul6 at 1. rewrite !L by lia. unfold delta. do 6 (destruct p as [|p]; [cbn [Nat.eqb]; ring|]). lia. }
  assert (D : mul6 S' (mul6 C S) p r = S' p r).
  { unfold mul6 at 1. rewrite !(fun p Hp => proj1 (H p r Hp Hr)) by lia. unfold delta. do 6 (destruct r as [|r]; [cbn [Nat.eqb]; ring|]). lia. }
  lra.
Qed.
Lemma inverse_symmetric C S : symmetric6 C -> inverse6 C S -> symmetric6 S.
Proof.
  intros H I p q Hp Hq. apply (inverse_unique C S (fun p q => S q p) I); try assumption.
  intros a r Ha Hr. transitivity (mul6 C S r a); [|rewrite (proj1 (I r a Hr Ha)); unfold delta; rewrite Nat.eqb_sym; reflexivity].
  unfold mul6. rewrite !(fun q Hq => H q r Hq Hr) by lia. ring.
Qed.

Section Averages.
Variables C S : mat6.
Hypothesis sym : symmetric6 C.
Hypothesis pos : positive_definite C.
Hypothesis inv : inverse6 C S.
Let symS : symmetric6 S := inverse_symmetric C S sym inv.

Let u := v6 1 1 1 0 0 0.
Let d1 := v6 1 (-1) 0 0 0 0.
Let d2 := v6 1 1 (-2) 0 0 0.
Let d3 := v6 0 0 0 1 0 0.
Let d4 := v6 0 0 0 0 1 0.
Let d5 := v6 0 0 0 0 0 1.

Lemma KV_energy : KV C = energy C u / 9.
Proof. unfold KV, einsum_iijj, sum3, C_ijkl, vm, energy, apply6, u, v6. cbn [nth]. field. Qed.
Lemma KR_energy : KR S = 1 / energy S u.
Proof.
  unfold KR. f_equal. unfold einsum_iijj, sum3. open_S. unfold energy, apply6, u, v6. field.
Qed.
Lemma GV_energy : GV C = (energy C d1 / 2 + energy C d2 / 6 + 2 * energy C d3 + 2 * energy C d4 + 2 * energy C d5) / 10.
Proof.
  unfold GV, energy, apply6, d1, d2, d3, d4, d5, v6.
  rewrite (sym 1%nat 0%nat), (sym 2%nat 0%nat), (sym 2%nat 1%nat) by lia. field.
Qed.
Let devS := energy S d1 / 2 + energy S d2 / 6 + energy S d3 / 2 + energy S d4 / 2 + energy S d5 / 2.
Lemma GR_energy : GR S = 5 / 2 / devS.
Proof.
  unfold GR. replace (4 * (S 0%nat 0%nat + S 1%nat 1%nat + S 2%nat 2%nat) - 4 * (S 0%nat 1%nat + S 0%nat 2%nat + S 1%nat 2%nat)
     + 3 * (S 3%nat 3%nat + S 4%nat 4%nat + S 5%nat 5%nat)) with (6 * devS).
  - unfold Rdiv. rewrite Rinv_mult. lra.
  - unfold devS, energy, apply6, d1, d2, d3, d4, d5, v6.
    rewrite (symS 1%nat 0%nat), (symS 2%nat 0%nat), (symS 2%nat 1%nat) by lia. field.
Qed.
Lemma nz_u : nonzero6 u. Proof. apply v6_nonzero. left; intro; lra. Qed.
Lemma nz1 : nonzero6 d1. Proof. apply v6_nonzero. left; intro; lra. Qed.
Lemma nz2 : nonzero6 d2. Proof. apply v6_nonzero. left; intro; lra. Qed.
Lemma nz3 : nonzero6 d3. Proof. apply v6_nonzero. right; right; right; left; intro; lra. Qed.
Lemma nz4 : nonzero6 d4. Proof. apply v6_nonzero. right; right; right; right; left; intro; lra. Qed.
Lemma nz5 : nonzero6 d5. Proof. apply v6_nonzero. right; right; right; right; right; intro; lra. Qed.

Lemma bulk_bound : 0 < KR S <= KV C.
Proof.
  rewrite KV_energy, KR_energy.
  pose proof (inverse_positive C S u pos inv nz_u) as PS.
  pose proof (duality C S u u sym pos inv nz_u) as D.
  replace (dot6 u u) with 3 in D by (unfold dot6, u, v6; ring).
  split; [apply Rdiv_lt_0_compat; lra|].
  apply Rmult_le_reg_r with (energy S u); [exact PS|]. unfold Rdiv. rewrite Rmult_1_l, Rinv_l by lra. lra.
Qed.
Lemma shear_bound : 0 < GR S <= GV C.
Proof.
  rewrite GV_energy, GR_energy.
  pose proof (inverse_positive C S d1 pos inv nz1) as P1. pose proof (inverse_positive C S d2 pos inv nz2) as P2.
  pose proof (inverse_positive C S d3 pos inv nz3) as P3. pose proof (inverse_positive C S d4 pos inv nz4) as P4.
  pose proof (inverse_positive C S d5 pos inv nz5) as P5.
  pose proof (pos d1 nz1) as Q1. pose proof (pos d2 nz2) as Q2. pose proof (pos d3 nz3) as Q3.
  pose proof (pos d4 nz4) as Q4. pose proof (pos d5 nz5) as Q5.
  pose proof (duality C S d1 d1 sym pos inv nz1) as D1. pose proof (duality C S d2 d2 sym pos inv nz2) as D2.
  pose proof (duality C S d3 d3 sym pos inv nz3) as D3. pose proof (duality C S d4 d4 sym pos inv nz4) as D4.
  pose proof (duality C S d5 d5 sym pos inv nz5) as D5.
  replace (dot6 d1 d1) with 2 in D1 by (unfold dot6, d1, v6; ring).
  replace (dot6 d2 d2) with 6 in D2 by (unfold dot6, d2, v6; ring).
  replace (dot6 d3 d3) with 1 in D3 by (unfold dot6, d3, v6; ring).
  replace (dot6 d4 d4) with 1 in D4 by (unfold dot6, d4, v6; ring).
  replace (dot6 d5 d5) with 1 in D5 by (unfold dot6, d5, v6; ring).
  set (a1 := energy C d1 / 2) in *. set (a2 := energy C d2 / 6) in *. set (a3 := 2 * energy C d3) in *.
  set (a4 := 2 * energy C d4) in *. set (a5 := 2 * energy C d5) in *.
  unfold devS. set (b1 := energy S d1 / 2) in *. set (b2 := energy S d2 / 6) in *. set (b3 := energy S d3 / 2) in *.
  set (b4 := energy S d4 / 2) in *. set (b5 := energy S d5 / 2) in *.
  assert (A1 : 0 < a1) by (unfold a1; lra). assert (A2 : 0 < a2) by (unfold a2; lra). assert (A3 : 0 < a3) by (unfold a3; lra).
  assert (A4 : 0 < a4) by (unfold a4; lra). assert (A5 : 0 < a5) by (unfold a5; lra).
  assert (B1 : 0 < b1) by (unfold b1; lra). assert (B2 : 0 < b2) by (unfold b2; lra). assert (B3 : 0 < b3) by (unfold b3; lra).
  assert (B4 : 0 < b4) by (unfold b4; lra). assert (B5 : 0 < b5) by (unfold b5; lra).
  assert (E1 : 1 <= a1 * b1) by (unfold a1, b1; lra). assert (E2 : 1 <= a2 * b2) by (unfold a2, b2; lra).
  assert (E3 : 1 <= a3 * b3) by (unfold a3, b3; lra). assert (E4 : 1 <= a4 * b4) by (unfold a4, b4; lra).
  assert (E5 : 1 <= a5 * b5) by (unfold a5, b5; lra).
  pose proof (sum_of_inverses a1 b1 a2 b2 A1 A2 E1 E2). pose proof (sum_of_inverses a1 b1 a3 b3 A1 A3 E1 E3).
  pose proof (sum_of_inverses a1 b1 a4 b4 A1 A4 E1 E4). pose proof (sum_of_inverses a1 b1 a5 b5 A1 A5 E1 E5).
  pose proof (sum_of_inverses a2 b2 a3 b3 A2 A3 E2 E3). pose proof (sum_of_inverses a2 b2 a4 b4 A2 A4 E2 E4).
  pose proof (sum_of_inverses a2 b2 a5 b5 A2 A5 E2 E5). pose proof (sum_of_inverses a3 b3 a4 b4 A3 A4 E3 E4).
  pose proof (sum_of_inverses a3 b3 a5 b5 A3 A5 E3 E5). pose proof (sum_of_inverses a4 b4 a5 b5 A4 A5 E4 E5).
  clearbody a1 a2 a3 a4 a5 b1 b2 b3 b4 b5.
  assert (BP : 0 < b1 + b2 + b3 + b4 + b5) by lra.
  assert (K : 25 <= (a1 + a2 + a3 + a4 + a5) * (b1 + b2 + b3 + b4 + b5)) by lra.
  split; [apply Rdiv_lt_0_compat; lra|].
  apply Rmult_le_reg_r with (b1 + b2 + b3 + b4 + b5); [exact BP|]. unfold Rdiv at 1. rewrite Rmult_assoc, Rinv_l by lra. lra.
Qed.
End Averages.

(** ** C29 *)
Theorem C29_bulk_order C S : symmetric6 C -> positive_definite C -> inverse6 C S ->
  0 < KR S /\ KR S <= KH C S <= KV C.
Proof. intros H P I. pose proof (bulk_bound C S H P I). unfold KH. lra. Qed.
Theorem C29_shear_order C S : symmetric6 C -> positive_definite C -> inverse6 C S ->
  0 < GR S /\ GR S <= GH C S <= GV C.
Proof. intros H P I. pose proof (shear_bound C S H P I). unfold GH. lra. Qed.
(** Textbook isotropic relations for each row of the table. *)
Definition young_textbook (K G : R) : R := 9 * K * G / (3 * K + G).
Definition poisson_textbook (K G : R) : R := (3 * K - 2 * G) / (2 * (3 * K + G)).
Theorem C29_rows K G : 0 < K -> 0 < G ->
  average_row K G = [K; young_textbook K G; G; poisson_textbook K G] /\
  -1 < poisson_textbook K G < 1 / 2 /\ 0 < young_textbook K G.
Proof.
  intros HK HG. unfold average_row, young_textbook, poisson_textbook.
  assert (P : 0 < 3 * K + G) by lra.
  split; [|split].
  - assert (E1 : 1 / (1 / (3 * G) + 1 / (9 * K)) = 9 * K * G / (3 * K + G)) by (field; lra).
    assert (E2 : (1 - 3 * G / (3 * K + G)) / 2 = (3 * K - 2 * G) / (2 * (3 * K + G))) by (field; lra).
    now rewrite E1, E2.
  - split.
    + apply Rmult_lt_reg_r with (2 * (3 * K + G)); [lra|]. unfold Rdiv. rewrite (Rmult_assoc (3 * K - 2 * G)), Rinv_l by lra. lra.
    + apply Rmult_lt_reg_r with (2 * (3 * K + G)); [lra|]. unfold Rdiv. rewrite (Rmult_assoc (3 * K - 2 * G)), Rinv_l by lra. lra.
  - apply Rdiv_lt_0_compat; [|exact P]. apply Rmult_lt_0_compat; lra.
Qed.
Lemma young_monotone K G K' G' : 0 < K -> 0 < G -> K <= K' -> G <= G' -> young_textbook K G <= young_textbook K' G'.
Proof.
  intros. assert (E : forall K G, 0 < K -> 0 < G -> young_textbook K G = / (/ (3 * G) + / (9 * K))).
  { intros k g Hk Hg. unfold young_textbook. field. lra. }
  rewrite !E by lra.
  assert (0 < / (3 * G)) by (apply Rinv_0_lt_compat; lra). assert (0 < / (9 * K)) by (apply Rinv_0_lt_compat; lra).
  assert (0 < / (3 * G')) by (apply Rinv_0_lt_compat; lra). assert (0 < / (9 * K')) by (apply Rinv_0_lt_compat; lra).
  assert (/ (3 * G') <= / (3 * G)) by (apply Rinv_le_contravar; lra).
  assert (/ (9 * K') <= / (9 * K)) by (apply Rinv_le_contravar; lra).
  apply Rinv_le_contravar; lra.
Qed.
(** The printed table: Reuss <= Hill <= Voigt for the bulk, Young and shear moduli. *)
Definition at2 (t : list (list R)) (r c : nat) : R := nth c (nth r t []) 0.
Theorem C29_table C S : symmetric6 C -> positive_definite C -> inverse6 C S ->
  forall c, (c < 3)%nat ->
    0 < at2 (averages C S) 1 c /\ at2 (averages C S) 1 c <= at2 (averages C S) 2 c <= at2 (averages C S) 0 c.
Proof.
  intros H P I c Hc.
  pose proof (C29_bulk_order C S H P I) as (K0 & K1 & K2). pose proof (C29_shear_order C S H P I) as (G0 & G1 & G2).
  unfold at2, averages.
  rewrite (proj1 (C29_rows (KV C) (GV C) ltac:(lra) ltac:(lra))), (proj1 (C29_rows (KR S) (GR S) ltac:(lra) ltac:(lra))),
    (proj1 (C29_rows (KH C S) (GH C S) ltac:(lra) ltac:(lra))).
  destruct c as [|[|[|c]]]; [| | |lia]; cbn [nth].
  - lra.
  - split; [apply C29_rows; lra|]. split; apply young_monotone; lra.
  - lra.
Qed.

(** Hill's values are half-way between Voigt's and Reuss's, and the velocities
    reported are those of that isotropic medium. *)
Theorem C29_hill C S : symmetric6 C -> positive_definite C -> inverse6 C S ->
  at2 (averages C S) 2 0 - at2 (averages C S) 1 0 = at2 (averages C S) 0 0 - at2 (averages C S) 2 0 /\
  at2 (averages C S) 2 2 - at2 (averages C S) 1 2 = at2 (averages C S) 0 2 - at2 (averages C S) 2 2.
Proof.
  intros H P I.
  pose proof (C29_bulk_order C S H P I) as (K0 & K1 & K2). pose proof (C29_shear_order C S H P I) as (G0 & G1 & G2).
  unfold at2, averages.
  rewrite (proj1 (C29_rows (KV C) (GV C) ltac:(lra) ltac:(lra))), (proj1 (C29_rows (KR S) (GR S) ltac:(lra) ltac:(lra))),
    (proj1 (C29_rows (KH C S) (GH C S) ltac:(lra) ltac:(lra))).
  cbn [nth]. unfold KH, GH. lra.
Qed.
Theorem C29_sound C S density : symmetric6 C -> positive_definite C -> inverse6 C S -> 0 < density ->
  exists vs vp, isotropic_velocities C S density = [vs; vs; vp] /\ 0 < vs < vp /\
    density * vs ^ 2 = 1000 * ((at2 (averages C S) 0 2 + at2 (averages C S) 1 2) / 2) /\
    density * (vp ^ 2 - 4 / 3 * vs ^ 2) = 1000 * ((at2 (averages C S) 0 0 + at2 (averages C S) 1 0) / 2).
Proof.
  intros H P I D. destruct (C29_hill C S H P I) as [HB HG].
  destruct (C29_table C S H P I 0%nat ltac:(lia)) as (B0 & B1 & _). destruct (C29_table C S H P I 2%nat ltac:(lia)) as (G0 & G1 & _).
  assert (EB : nth 0 (nth 2 (averages C S) []) 0 = at2 (averages C S) 2 0) by reflexivity.
  assert (EG : nth 2 (nth 2 (averages C S) []) 0 = at2 (averages C S) 2 2) by reflexivity.
  unfold isotropic_velocities. rewrite EB, EG.
  set (B := at2 (averages C S) 2 0) in *. set (G := at2 (averages C S) 2 2) in *.
  assert (PS : 0 < 1000 * G / density) by (apply Rdiv_lt_0_compat; lra).
  assert (PP : 0 < 1000 * (B + 4 * G / 3) / density) by (apply Rdiv_lt_0_compat; lra).
  do 2 eexists. split; [reflexivity|]. split; [split; [now apply sqrt_lt_R0|]|].
  - apply sqrt_lt_1_alt. split; [lra|]. unfold Rdiv. apply Rmult_lt_compat_r; [now apply Rinv_0_lt_compat|]. lra.
  - assert (S1 : sqrt (1000 * G / density) ^ 2 = 1000 * G / density) by (apply pow2_sqrt; lra).
    assert (S2 : sqrt (1000 * (B + 4 * G / 3) / density) ^ 2 = 1000 * (B + 4 * G / 3) / density) by (apply pow2_sqrt; lra).
    rewrite S1, S2. split.
    + transitivity (1000 * G); [field; lra|lra].
    + transitivity (1000 * B); [field; lra|lra].
Qed.

(** ** Isotropic crystals *)
Definition isotropic_C (K G : R) : mat6 := fun p q =>
  match p, q with
  | 0%nat, 0%nat | 1%nat, 1%nat | 2%nat, 2%nat => K + 4 * G / 3
  | 0%nat, 1%nat | 0%nat, 2%nat | 1%nat, 0%nat | 1%nat, 2%nat | 2%nat, 0%nat | 2%nat, 1%nat => K - 2 * G / 3
  | 3%nat, 3%nat | 4%nat, 4%nat | 5%nat, 5%nat => G
  | _, _ => 0
  end.
Definition isotropic_S (K G : R) : mat6 := fun p q =>
  let E := young_textbook K G in let nu := poisson_textbook K G in
  match p, q with
  | 0%nat, 0%nat | 1%nat, 1%nat | 2%nat, 2%nat => 1 / E
  | 0%nat, 1%nat | 0%nat, 2%nat | 1%nat, 0%nat | 1%nat, 2%nat | 2%nat, 0%nat | 2%nat, 1%nat => - nu / E
  | 3%nat, 3%nat | 4%nat, 4%nat | 5%nat, 5%nat => 1 / G
  | _, _ => 0
  end.
Lemma isotropic_left K G p r : 0 < K -> 0 < G -> (p < 6)%nat -> (r < 6)%nat -> mul6 (isotropic_S K G) (isotropic_C K G) p r = delta p r.
Proof.
  intros HK HG Hp Hr. unfold mul6, delta.
  do 6 (destruct p as [|p]; [do 6 (destruct r as [|r]; [cbn [isotropic_S isotropic_C Nat.eqb]; unfold young_textbook, poisson_textbook; field; lra|]); lia|]). lia.
Qed.
(** For isotropic constants every average and every directional function,
    in every direction, is the isotropic value. *)
Theorem C29_isotropic K G C S theta phi chi :
  0 < K -> 0 < G ->
  (forall p q, (p < 6)%nat -> (q < 6)%nat -> C p q = isotropic_C K G p q) -> inverse6 C S ->
  KV C = K /\ KR S = K /\ KH C S = K /\ GV C = G /\ GR S = G /\ GH C S = G /\
  young_modulus S theta phi = young_textbook K G /\
  linear_compressibility S theta phi = 1000 / (3 * K) /\
  shear_modulus S theta phi chi = G /\
  poisson_ratio S theta phi chi = poisson_textbook K G.
Proof.
  intros HK HG HC I.
  assert (HS : forall p q, (p < 6)%nat -> (q < 6)%nat -> S p q = isotropic_S K G p q).
  { apply (inverse_unique C S); [exact I|]. intros p r Hp Hr. rewrite <- (isotropic_left K G p r) by assumption.
    unfold mul6. rewrite !HC by lia. reflexivity. }
  assert (E1 : KV C = K). { unfold KV, einsum_iijj, sum3, C_ijkl, vm. cbn [nth]. rewrite !HC by lia. cbn [isotropic_C]. field. }
  assert (E2 : KR S = K). { unfold KR, einsum_iijj, sum3. open_S. rewrite !HS by lia. cbn [isotropic_S]. unfold young_textbook, poisson_textbook. field. lra. }
  assert (E3 : GV C = G). { unfold GV. rewrite !HC by lia. cbn [isotropic_C]. field. }
  assert (E4 : GR S = G). { unfold GR. rewrite !HS by lia. cbn [isotropic_S]. unfold young_textbook, poisson_textbook. field. lra. }
  assert (X : forall a b, dot a a = 1 -> dot b b = 1 -> dot a b = 0 ->
     loop_aaaa (S_ijkl S) a = 1 / young_textbook K G /\ loop_aakk (S_ijkl S) a = 1 / (3 * K) /\
     loop_abab (S_ijkl S) a b = 1 / (4 * G) /\ loop_aabb (S_ijkl S) a b = - poisson_textbook K G / young_textbook K G).
  { intros a b A B AB.
    assert (L1 : loop_aaaa (S_ijkl S) a = dot a a * dot a a / young_textbook K G).
    { unfold loop_aaaa, sum3. open_S. rewrite !HS by lia. cbn [isotropic_S]. unfold dot, young_textbook, poisson_textbook. field. lra. }
    assert (L2 : loop_aakk (S_ijkl S) a = dot a a / (3 * K)).
    { unfold loop_aakk, sum3. open_S. rewrite !HS by lia. cbn [isotropic_S]. unfold dot, young_textbook, poisson_textbook. field. lra. }
    assert (L3 : loop_abab (S_ijkl S) a b = (dot a a * dot b b + dot a b * dot a b) / (4 * G) - poisson_textbook K G / young_textbook K G * (dot a b * dot a b)).
    { unfold loop_abab, sum3. open_S. rewrite !HS by lia. cbn [isotropic_S]. unfold dot, young_textbook, poisson_textbook. field. lra. }
    assert (L4 : loop_aabb (S_ijkl S) a b = - poisson_textbook K G / young_textbook K G * (dot a a * dot b b) + (dot a b * dot a b) / (2 * G)).
    { unfold loop_aabb, sum3. open_S. rewrite !HS by lia. cbn [isotropic_S]. unfold dot, young_textbook, poisson_textbook. field. lra. }
    rewrite L1, L2, L3, L4, A, B, AB. unfold young_textbook, poisson_textbook. repeat split; field; lra. }
  destruct (C30_unit theta phi chi) as (A & B & AB). destruct (X _ _ A B AB) as (X1 & X2 & X3 & X4).
  unfold young_modulus, linear_compressibility, shear_modulus, poisson_ratio.
  rewrite X1, X2, X3, X4. unfold KH, GH. rewrite E1, E2, E3, E4.
  unfold young_textbook, poisson_textbook. repeat split; field; lra.
Qed.
Example C29_instance : symmetric6 (isotropic_C 3 1) /\ inverse6 (isotropic_C 3 1) (isotropic_S 3 1) /\ positive_definite (isotropic_C 3 1).
Proof.
  split; [|split].
  - intros p q Hp Hq. do 6 (destruct p as [|p]; [do 6 (destruct q as [|q]; [reflexivity|]); lia|]). lia.
  - intros p r Hp Hr. split; [|apply isotropic_left; auto; lra]. unfold mul6, delta.
    do 6 (destruct p as [|p]; [do 6 (destruct r as [|r]; [cbn [isotropic_S isotropic_C Nat.eqb]; unfold young_textbook, poisson_textbook; field; lra|]); lia|]). lia.
  - intros s (p & Hp & Np). assert (0 < Rsqr (s p)) by now apply Rsqr_pos_lt. unfold Rsqr in *.
    unfold energy, apply6. cbn [isotropic_C].
    pose proof (Rle_0_sqr (s 0%nat + s 1%nat + s 2%nat)). pose proof (Rle_0_sqr (s 0%nat)). pose proof (Rle_0_sqr (s 1%nat)). pose proof (Rle_0_sqr (s 2%nat)).
    pose proof (Rle_0_sqr (s 3%nat)). pose proof (Rle_0_sqr (s 4%nat)). pose proof (Rle_0_sqr (s 5%nat)).
    unfold Rsqr in *. do 6 (destruct p as [|p]; [lra|]). lia.
Qed.

Print Assumptions C29_table.
Print Assumptions C29_isotropic.
Print Assumptions C29_hill.
Print Assumptions C29_sound.
