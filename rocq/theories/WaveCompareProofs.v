(** Waves of two crystals whose moduli are close: the three values of density times
    velocity squared, in order, are close (used by C108). *)
From Coq Require Import Reals List Arith Lia Lra.
From Verif Require Import SymmetryModel TensorModel TensorProps SeismicNodeProofs ElasticChainProps.
Import ListNotations.
Open Scope R_scope.

(** The strain of a wave along n with displacement z, in Voigt notation, and its
    energy in MPa. *)
Definition wave_strain (n z : vec) : nat -> R := fun p =>
  match p with
  | 0%nat => z 0%nat * n 0%nat | 1%nat => z 1%nat * n 1%nat | 2%nat => z 2%nat * n 2%nat
  | 3%nat => z 1%nat * n 2%nat + z 2%nat * n 1%nat | 4%nat => z 0%nat * n 2%nat + z 2%nat * n 0%nat | 5%nat => z 0%nat * n 1%nat + z 1%nat * n 0%nat
  | _ => 0 end.
Definition wave_energy (c : mat6) (n z : vec) : R := 1000 * energy c (wave_strain n z).
Definition pull (c : mat6) (n z : vec) (i : nat) : R := 1000 * sum_3 (fun j => sum_3 (fun k => sum_3 (fun l => C_ijkl c i j k l * n j * n l * z k))).

Lemma energy_pull c n z : wave_energy c n z = dot z (pull c n z).
Proof. unfold wave_energy, dot, pull, energy, apply6, wave_strain, sum_3, C_ijkl, vm. cbn [nth]. ring. Qed.
Lemma pull_linear c n u0 u1 u2 a0 a1 a2 z i : (forall k, (k < 3)%nat -> z k = a0 * u0 k + a1 * u1 k + a2 * u2 k) ->
  pull c n z i = a0 * pull c n u0 i + a1 * pull c n u1 i + a2 * pull c n u2 i.
Proof. intros E. unfold pull, sum_3. rewrite !E by lia. ring. Qed.

Lemma expand u0 u1 u2 z k : orthonormal3 u0 u1 u2 -> (k < 3)%nat -> z k = dot z u0 * u0 k + dot z u1 * u1 k + dot z u2 * u2 k.
Proof.
  intros O Hk. pose proof (columns_orthonormal u0 u1 u2 O) as Q.
  pose proof (Q 0%nat k ltac:(lia) Hk) as Q0. pose proof (Q 1%nat k ltac:(lia) Hk) as Q1. pose proof (Q 2%nat k ltac:(lia) Hk) as Q2.
  transitivity (z 0%nat * (u0 0%nat * u0 k + u1 0%nat * u1 k + u2 0%nat * u2 k) + z 1%nat * (u0 1%nat * u0 k + u1 1%nat * u1 k + u2 1%nat * u2 k) +
    z 2%nat * (u0 2%nat * u0 k + u1 2%nat * u1 k + u2 2%nat * u2 k)).
  - rewrite Q0, Q1, Q2. destruct k as [|[|[|k]]]; [| | |lia]; unfold delta; cbn [Nat.eqb]; ring.
  - unfold dot. ring.
Qed.
(** Three waves with orthogonal displacements give the energy of any displacement. *)
Lemma spectrum c rho n u0 u1 u2 v0 v1 v2 z : travels c rho n u0 v0 -> travels c rho n u1 v1 -> travels c rho n u2 v2 -> orthonormal3 u0 u1 u2 ->
  wave_energy c n z = rho * v0 ^ 2 * dot z u0 ^ 2 + rho * v1 ^ 2 * dot z u1 ^ 2 + rho * v2 ^ 2 * dot z u2 ^ 2 /\
  dot z z = dot z u0 ^ 2 + dot z u1 ^ 2 + dot z u2 ^ 2.
Proof.
  intros (_ & _ & T0) (_ & _ & T1) (_ & _ & T2) O.
  pose proof (fun k H => expand u0 u1 u2 z k O H) as E. split.
  - rewrite energy_pull. unfold dot at 1. rewrite !(pull_linear c n u0 u1 u2 _ _ _ z _ E).
    assert (P0 : forall i, (i < 3)%nat -> pull c n u0 i = rho * v0 ^ 2 * u0 i) by exact T0.
    assert (P1 : forall i, (i < 3)%nat -> pull c n u1 i = rho * v1 ^ 2 * u1 i) by exact T1.
    assert (P2 : forall i, (i < 3)%nat -> pull c n u2 i = rho * v2 ^ 2 * u2 i) by exact T2.
    rewrite !P0, !P1, !P2 by lia. unfold dot. ring.
  - transitivity (z 0%nat * (dot z u0 * u0 0%nat + dot z u1 * u1 0%nat + dot z u2 * u2 0%nat) + z 1%nat * (dot z u0 * u0 1%nat + dot z u1 * u1 1%nat + dot z u2 * u2 1%nat) +
      z 2%nat * (dot z u0 * u0 2%nat + dot z u1 * u1 2%nat + dot z u2 * u2 2%nat)).
    + rewrite <- !E by lia. reflexivity.
    + unfold dot. ring.
Qed.

(** Close moduli give close energies. *)
Lemma alike_sym c x : alike c x -> alike x c.
Proof. intros A i j Hi Hj. rewrite Rabs_minus_sym. now apply A. Qed.
Lemma alike_energy c x e : alike c x -> energy x e - 3e-4 * length2 e <= energy c e.
Proof.
  intros A. unfold length2, energy, apply6 in *.
  assert (T : forall i j, (i < 6)%nat -> (j < 6)%nat -> - (5e-5 / 2) * (e i * e i + e j * e j) <= e i * ((c i j - x i j) * e j)) by (intros; apply term_bound, A; assumption).
  assert (U : forall i, (i < 6)%nat -> - (5e-5 / 2) * (6 * (e i * e i) + (e 0%nat * e 0%nat + e 1%nat * e 1%nat + e 2%nat * e 2%nat + e 3%nat * e 3%nat + e 4%nat * e 4%nat + e 5%nat * e 5%nat)) <=
    e i * (c i 0%nat * e 0%nat + c i 1%nat * e 1%nat + c i 2%nat * e 2%nat + c i 3%nat * e 3%nat + c i 4%nat * e 4%nat + c i 5%nat * e 5%nat) -
    e i * (x i 0%nat * e 0%nat + x i 1%nat * e 1%nat + x i 2%nat * e 2%nat + x i 3%nat * e 3%nat + x i 4%nat * e 4%nat + x i 5%nat * e 5%nat)).
  { intros i Hi. pose proof (T i 0%nat Hi ltac:(lia)). pose proof (T i 1%nat Hi ltac:(lia)). pose proof (T i 2%nat Hi ltac:(lia)).
    pose proof (T i 3%nat Hi ltac:(lia)). pose proof (T i 4%nat Hi ltac:(lia)). pose proof (T i 5%nat Hi ltac:(lia)). lra. }
  pose proof (U 0%nat ltac:(lia)). pose proof (U 1%nat ltac:(lia)). pose proof (U 2%nat ltac:(lia)). pose proof (U 3%nat ltac:(lia)). pose proof (U 4%nat ltac:(lia)). pose proof (U 5%nat ltac:(lia)). lra.
Qed.
Lemma strain_length n z : dot n n = 1 -> dot z z = 1 -> length2 (wave_strain n z) <= 2.
Proof.
  intros N Z.
  assert (E : 2 * (dot z z * dot n n) - length2 (wave_strain n z) =
    Rsqr (z 0%nat * n 1%nat - z 1%nat * n 0%nat) + Rsqr (z 0%nat * n 2%nat - z 2%nat * n 0%nat) + Rsqr (z 1%nat * n 2%nat - z 2%nat * n 1%nat) +
    Rsqr (z 0%nat * n 0%nat) + Rsqr (z 1%nat * n 1%nat) + Rsqr (z 2%nat * n 2%nat)) by (unfold dot, length2, wave_strain, Rsqr; ring).
  rewrite N, Z in E. pose proof (Rle_0_sqr (z 0%nat * n 1%nat - z 1%nat * n 0%nat)). pose proof (Rle_0_sqr (z 0%nat * n 2%nat - z 2%nat * n 0%nat)).
  pose proof (Rle_0_sqr (z 1%nat * n 2%nat - z 2%nat * n 1%nat)). pose proof (Rle_0_sqr (z 0%nat * n 0%nat)). pose proof (Rle_0_sqr (z 1%nat * n 1%nat)). pose proof (Rle_0_sqr (z 2%nat * n 2%nat)). lra.
Qed.
Lemma alike_wave c x n z : alike c x -> dot n n = 1 -> dot z z = 1 -> wave_energy x n z <= wave_energy c n z + 0.6.
Proof.
  intros A N Z. pose proof (alike_energy c x (wave_strain n z) A). pose proof (strain_length n z N Z). unfold wave_energy. lra.
Qed.

(** A unit vector orthogonal to two given ones. *)
Lemma across a b : dot a a = 1 -> dot b b = 1 -> (exists u, dot u u = 1 /\ dot u a = 0) -> exists z, dot z z = 1 /\ dot z a = 0 /\ dot z b = 0.
Proof.
  intros A B (u & U & UA).
  set (x := vec3 (a 1%nat * b 2%nat - a 2%nat * b 1%nat) (a 2%nat * b 0%nat - a 0%nat * b 2%nat) (a 0%nat * b 1%nat - a 1%nat * b 0%nat)).
  assert (XA : dot x a = 0) by (unfold dot, x, vec3; ring). assert (XB : dot x b = 0) by (unfold dot, x, vec3; ring).
  assert (XX : dot x x = dot a a * dot b b - dot a b * dot a b) by (unfold dot, x, vec3; ring). rewrite A, B in XX.
  assert (P : 0 <= dot x x) by (pose proof (Rle_0_sqr (x 0%nat)); pose proof (Rle_0_sqr (x 1%nat)); pose proof (Rle_0_sqr (x 2%nat)); unfold dot, Rsqr in *; lra).
  destruct (Req_dec (dot x x) 0) as [Z|Z].
  - (* parallel *)
    exists u. split; [exact U|]. split; [exact UA|]. set (k := dot a b) in *.
    assert (K : k * k = 1) by lra.
    assert (D : dot (fun i => b i - k * a i) (fun i => b i - k * a i) = 0).
    { transitivity (dot b b - 2 * k * dot a b + k * k * dot a a); [unfold dot; ring|]. fold k. rewrite A, B. lra. }
    assert (E : forall i, (i < 3)%nat -> b i = k * a i).
    { unfold dot in D. pose proof (Rle_0_sqr (b 0%nat - k * a 0%nat)) as R0. pose proof (Rle_0_sqr (b 1%nat - k * a 1%nat)) as R1. pose proof (Rle_0_sqr (b 2%nat - k * a 2%nat)) as R2. unfold Rsqr in R0, R1, R2.
      intros i Hi. apply Rminus_diag_uniq. apply Rsqr_0_uniq. unfold Rsqr. destruct i as [|[|[|i]]]; [lra|lra|lra|lia]. }
    unfold dot. rewrite !E by lia. transitivity (k * dot u a); [unfold dot; ring|]. rewrite UA. ring.
  - assert (0 < dot x x) as PP by lra. set (s := sqrt (dot x x)). assert (S0 : 0 < s) by (apply sqrt_lt_R0; exact PP). assert (SS : s * s = dot x x) by (apply sqrt_sqrt; exact P).
    exists (fun i => x i / s). split; [|split].
    + transitivity (dot x x / (s * s)); [unfold dot; field; lra|]. rewrite SS. field. lra.
    + transitivity (dot x a / s); [unfold dot; field; lra|]. rewrite XA. field. lra.
    + transitivity (dot x b / s); [unfold dot; field; lra|]. rewrite XB. field. lra.
Qed.

(** The three products do not rise by more than the energies do. *)
Section Order.
Variables (c x : mat6) (rho sigma : R) (n : vec) (u0 u1 u2 w0 w1 w2 : vec) (v0 v1 v2 s0 s1 s2 : R).
Variables (k slack : R).
Hypothesis Hk : 0 < k.
Hypothesis A : forall z, dot z z = 1 -> wave_energy x n z <= k * wave_energy c n z + slack.
Hypothesis Hr : 0 < rho.
Hypothesis Hs : 0 < sigma.
Hypothesis U0 : travels c rho n u0 v0.
Hypothesis U1 : travels c rho n u1 v1.
Hypothesis U2 : travels c rho n u2 v2.
Hypothesis UO : orthonormal3 u0 u1 u2.
Hypothesis UV : v0 <= v1 <= v2.
Hypothesis W0 : travels x sigma n w0 s0.
Hypothesis W1 : travels x sigma n w1 s1.
Hypothesis W2 : travels x sigma n w2 s2.
Hypothesis WO : orthonormal3 w0 w1 w2.
Hypothesis WV : s0 <= s1 <= s2.
Lemma squares_le r a b : 0 < r -> 0 < a -> a <= b -> r * a ^ 2 <= r * b ^ 2.
Proof. intros Hr' Ha Hab. apply Rmult_le_compat_l; [lra|]. apply pow_incr. lra. Qed.
Lemma weighed l0 l1 l2 b0 b1 b2 : l0 <= l1 <= l2 -> b0 ^ 2 + b1 ^ 2 + b2 ^ 2 = 1 ->
  l0 * b0 ^ 2 + l1 * b1 ^ 2 + l2 * b2 ^ 2 <= l2 /\ l0 <= l0 * b0 ^ 2 + l1 * b1 ^ 2 + l2 * b2 ^ 2.
Proof.
  intros L E. pose proof (pow2_ge_0 b0). pose proof (pow2_ge_0 b1). pose proof (pow2_ge_0 b2).
  assert (0 <= (l1 - l0) * b1 ^ 2) by (apply Rmult_le_pos; lra). assert (0 <= (l2 - l0) * b2 ^ 2) by (apply Rmult_le_pos; lra).
  assert (0 <= (l2 - l0) * b0 ^ 2) by (apply Rmult_le_pos; lra). assert (0 <= (l2 - l1) * b1 ^ 2) by (apply Rmult_le_pos; lra).
  assert (l0 * (b0 ^ 2 + b1 ^ 2 + b2 ^ 2) = l0) by (rewrite E; ring). assert (l2 * (b0 ^ 2 + b1 ^ 2 + b2 ^ 2) = l2) by (rewrite E; ring). split; lra.
Qed.
Lemma risen_by : sigma * s0 ^ 2 <= k * (rho * v0 ^ 2) + slack /\ sigma * s1 ^ 2 <= k * (rho * v1 ^ 2) + slack /\ sigma * s2 ^ 2 <= k * (rho * v2 ^ 2) + slack.
Proof.
  assert (Up : forall y z, y <= z -> k * y <= k * z) by (intros; apply Rmult_le_compat_l; lra).
  pose proof (fun z => spectrum c rho n u0 u1 u2 v0 v1 v2 z U0 U1 U2 UO) as SU.
  pose proof (fun z => spectrum x sigma n w0 w1 w2 s0 s1 s2 z W0 W1 W2 WO) as SW.
  destruct U0 as (P0 & _ & _), U1 as (P1 & _ & _), U2 as (P2 & _ & _), W0 as (Q0 & _ & _), W1 as (Q1 & _ & _), W2 as (Q2 & _ & _).
  pose proof (squares_le rho v0 v1 Hr P0 ltac:(lra)) as LU1. pose proof (squares_le rho v1 v2 Hr P1 ltac:(lra)) as LU2.
  pose proof (squares_le sigma s0 s1 Hs Q0 ltac:(lra)) as LW1. pose proof (squares_le sigma s1 s2 Hs Q1 ltac:(lra)) as LW2.
  destruct UO as (A0 & A1 & A2 & A3 & A4 & A5), WO as (B0 & B1 & B2 & B3 & B4 & B5).
  assert (Sym : forall a b, dot a b = dot b a) by (intros; unfold dot; ring).
  split; [|split].
  - (* the displacement of the slow wave of c *)
    destruct (SU u0) as (E & _). destruct (SW u0) as (F & G). rewrite A0 in G. rewrite A0, A3, A4 in E.
    pose proof (A u0 A0) as K. rewrite E, F in K.
    destruct (weighed (sigma * s0 ^ 2) (sigma * s1 ^ 2) (sigma * s2 ^ 2) (dot u0 w0) (dot u0 w1) (dot u0 w2) ltac:(lra) ltac:(lra)) as (_ & L). lra.
  - destruct (across u2 w0 A2 B0) as (z & Z & Z2 & Z0); [exists u0; split; assumption|].
    destruct (SU z) as (E & G). destruct (SW z) as (F & G'). rewrite Z2 in E, G. rewrite Z0 in F, G'. rewrite Z in G, G'.
    pose proof (A z Z) as K. rewrite E, F in K.
    destruct (weighed (rho * v0 ^ 2) (rho * v1 ^ 2) (rho * v1 ^ 2) (dot z u0) (dot z u1) 0 ltac:(lra) ltac:(lra)) as (L & _). apply Up in L.
    destruct (weighed (sigma * s1 ^ 2) (sigma * s1 ^ 2) (sigma * s2 ^ 2) 0 (dot z w1) (dot z w2) ltac:(lra) ltac:(lra)) as (_ & L'). lra.
  - destruct (SW w2) as (F & _). destruct (SU w2) as (E & G). rewrite B2 in G. rewrite (Sym w2 w0), (Sym w2 w1), B2, B4, B5 in F.
    pose proof (A w2 B2) as K. rewrite E, F in K.
    destruct (weighed (rho * v0 ^ 2) (rho * v1 ^ 2) (rho * v2 ^ 2) (dot w2 u0) (dot w2 u1) (dot w2 u2) ltac:(lra) ltac:(lra)) as (L & _). apply Up in L. lra.
Qed.
End Order.
Lemma risen c x rho sigma n u0 u1 u2 w0 w1 w2 v0 v1 v2 s0 s1 s2 : alike c x -> dot n n = 1 -> 0 < rho -> 0 < sigma ->
  travels c rho n u0 v0 -> travels c rho n u1 v1 -> travels c rho n u2 v2 -> orthonormal3 u0 u1 u2 -> v0 <= v1 <= v2 ->
  travels x sigma n w0 s0 -> travels x sigma n w1 s1 -> travels x sigma n w2 s2 -> orthonormal3 w0 w1 w2 -> s0 <= s1 <= s2 ->
  sigma * s0 ^ 2 <= rho * v0 ^ 2 + 0.6 /\ sigma * s1 ^ 2 <= rho * v1 ^ 2 + 0.6 /\ sigma * s2 ^ 2 <= rho * v2 ^ 2 + 0.6.
Proof.
  intros A N Hr Hs U0 U1 U2 UO UV W0 W1 W2 WO WV.
  assert (H : forall z, dot z z = 1 -> wave_energy x n z <= 1 * wave_energy c n z + 0.6) by (intros z Z; pose proof (alike_wave c x n z A N Z); lra).
  pose proof (risen_by c x rho sigma n u0 u1 u2 w0 w1 w2 v0 v1 v2 s0 s1 s2 1 0.6 Rlt_0_1 H Hr Hs U0 U1 U2 UO UV W0 W1 W2 WO WV). lra.
Qed.
