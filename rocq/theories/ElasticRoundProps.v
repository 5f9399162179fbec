(** C109: what the four decimals of an elastic input file cost. Every modulus which
    `quantas soec` derives from the file stays within a fixed ratio of the one which
    belongs to the moduli that were printed. *)
From Coq Require Import Reals String Ascii List Bool Arith ZArith NArith Lia Lra.
From Flocq Require Import Core.
From Verif Require SoecIOModel SoecIOProps SoecInterfaceModel SoecInterfaceProps SoecInpgenModel SoecInpgenProps CliModel.
From Verif Require Import ReportSpec Py DecimalModel FormatModel FormatProofs TableModel SymmetryModel SymmetryProofs TensorModel TensorProps AverageProps SoecReportModel SoecReportProps
  SoecRunModel SoecRunProps SoecCommandModel SoecCommandProps ElasticChainProps WaveCompareProofs.
From Verif Require SeismicNodeProofs.
Import SeismicNodeProofs(travels).
Import ListNotations.
Open Scope string_scope.
Open Scope list_scope.
Open Scope R_scope.

(** ** Specification *)
(** [b] differs from the positive [a] by the fraction [e] of it at most. *)
Definition within (e a b : R) : Prop := 0 < a /\ (1 - e) * a <= b <= (1 + e) * a.

(** ** Forms which are close by a ratio *)
Lemma within_inverse e a b : 0 <= e < 1 -> 0 < a -> (1 - e) * b <= a <= (1 + e) * b -> within e (/ a) (/ b).
Proof.
  intros He Ha H. assert (Hb : 0 < b).
  { destruct (Rlt_le_dec 0 b) as [L|L]; [exact L|]. assert (0 <= (1 + e) * - b) by (apply Rmult_le_pos; lra). lra. }
  assert (Ia := Rinv_0_lt_compat a Ha). assert (Ib := Rinv_0_lt_compat b Hb). split; [exact Ia|]. split.
  - apply Rmult_le_reg_r with (a * b); [now apply Rmult_lt_0_compat|]. replace ((1 - e) * / a * (a * b)) with ((1 - e) * b) by (field; lra). replace (/ b * (a * b)) with a by (field; lra). lra.
  - apply Rmult_le_reg_r with (a * b); [now apply Rmult_lt_0_compat|]. replace ((1 + e) * / a * (a * b)) with ((1 + e) * b) by (field; lra). replace (/ b * (a * b)) with a by (field; lra). lra.
Qed.
Lemma within_scale e k a b : 0 < k -> within e a b -> within e (k * a) (k * b).
Proof. intros K (A & B & C). split; [now apply Rmult_lt_0_compat|]. split; [replace ((1 - e) * (k * a)) with (k * ((1 - e) * a)) by ring|replace ((1 + e) * (k * a)) with (k * ((1 + e) * a)) by ring]; apply Rmult_le_compat_l; lra. Qed.
Lemma within_mean e a b a' b' : within e a b -> within e a' b' -> within e (mean a a') (mean b b').
Proof. intros (A & B & C) (A' & B' & C'). unfold mean. split; lra. Qed.
(** Young's modulus of an isotropic average. *)
Lemma within_young e K G K' G' : 0 <= e < 1 -> within e K K' -> within e G G' -> within e (young_textbook K G) (young_textbook K' G').
Proof.
  intros He (A & B & C) (A' & B' & C').
  assert (P : 0 < (1 - e) * K) by (apply Rmult_lt_0_compat; lra). assert (P' : 0 < (1 - e) * G) by (apply Rmult_lt_0_compat; lra).
  assert (Y : forall k g, 0 < k -> 0 < g -> young_textbook k g = 9 * / (3 * / g + / k)) by (intros k g Hk Hg; unfold young_textbook; field; repeat split; lra).
  assert (Mo : forall k g k' g', 0 < k <= k' -> 0 < g <= g' -> young_textbook k g <= young_textbook k' g').
  { intros k g k' g' (k0 & k1) (g0 & g1). rewrite !Y by lra. apply Rmult_le_compat_l; [lra|].
    assert (I1 := Rinv_0_lt_compat k' ltac:(lra)). assert (I2 := Rinv_0_lt_compat g' ltac:(lra)).
    apply Rinv_le_contravar; [lra|]. pose proof (Rinv_le_contravar k k' k0 k1). pose proof (Rinv_le_contravar g g' g0 g1). lra. }
  assert (Ho : forall t, 0 < t -> young_textbook (t * K) (t * G) = t * young_textbook K G) by (intros s Hs; unfold young_textbook; field; repeat split; try lra; assert (0 < s * K) by (apply Rmult_lt_0_compat; lra); assert (0 < s * G) by (apply Rmult_lt_0_compat; lra); lra).
  split; [rewrite Y by lra; assert (I1 := Rinv_0_lt_compat K A); assert (I2 := Rinv_0_lt_compat G A'); apply Rmult_lt_0_compat; [lra|]; apply Rinv_0_lt_compat; lra|].
  split; [rewrite <- Ho by lra|rewrite <- (Ho (1 + e)) by lra]; apply Mo; lra.
Qed.
Lemma alike_ratio c x margin e : (3e-4 < margin) -> alike c x -> stable_by margin x -> (1 - 3e-4 / margin) * energy x e <= energy c e <= (1 + 3e-4 / margin) * energy x e.
Proof.
  intros M A B. pose proof (alike_energy c x e A) as P. pose proof (alike_energy x c e (alike_sym _ _ A)) as Q. specialize (B e).
  assert (L : 3e-4 * length2 e <= 3e-4 / margin * energy x e).
  { replace (3e-4 * length2 e) with (3e-4 / margin * (margin * length2 e)) by (field; lra). apply Rmult_le_compat_l; [|exact B]. apply Rlt_le, Rdiv_lt_0_compat; lra. }
  split; lra.
Qed.
(** A stiffer crystal is less compliant. *)
Lemma softer x c Sx Sc k s : symmetric6 x -> positive_definite x -> inverse6 x Sx -> inverse6 c Sc -> 0 < k -> (forall e, energy x e <= k * energy c e) -> energy Sc s <= k * energy Sx s.
Proof.
  intros Y P Ix Ic K H. set (e := apply6 Sc s). set (y := apply6 Sx s).
  assert (E : energy c e = energy Sc s).
  { rewrite !energy_dot. fold e. unfold dot6 at 1. unfold e at 2 4 6 8 10 12. rewrite !(apply_inverse c Sc s) by (auto; lia). unfold dot6. ring. }
  assert (F : energy x y = energy Sx s).
  { rewrite !energy_dot. fold y. unfold dot6 at 1. unfold y at 2 4 6 8 10 12. rewrite !(apply_inverse x Sx s) by (auto; lia). unfold dot6. ring. }
  assert (D : dot6 e (apply6 x y) = energy Sc s).
  { rewrite energy_dot. fold e. unfold dot6 at 1. unfold y. rewrite !(apply_inverse x Sx s) by (auto; lia). unfold dot6. ring. }
  pose proof (energy_nonneg x (fun p => e p - k * y p) P) as Q. rewrite energy_shift, D, F in Q by exact Y.
  specialize (H e). rewrite E in H.
  assert (0 <= k * (k * energy Sx s - energy Sc s)) by lra.
  apply Rmult_le_reg_l with k; [exact K|]. lra.
Qed.

(** ** The moduli of two crystals which agree in four decimals *)
Section Pair.
Variables (x c Sx Sc : mat6) (margin : R).
Hypothesis Yx : symmetric6 x.
Hypothesis Yc : symmetric6 c.
Hypothesis A : alike c x.
Hypothesis M : 3e-4 < margin.
Hypothesis B : stable_by margin x.
Hypothesis Ix : inverse6 x Sx.
Hypothesis Ic : inverse6 c Sc.
Notation eps := (3e-4 / margin).
Lemma eps_range : 0 <= eps < 1.
Proof. split; [apply Rlt_le, Rdiv_lt_0_compat; lra|]. apply Rmult_lt_reg_r with margin; [lra|]. unfold Rdiv. rewrite Rmult_assoc, Rinv_l by lra. lra. Qed.
Lemma px : positive_definite x.
Proof. apply (stable_positive _ margin); [lra|exact B]. Qed.
Lemma pc : positive_definite c.
Proof. apply (stable_positive _ (margin - 3e-4)); [lra|]. now apply (alike_stable _ x). Qed.
Lemma compliant s : (1 - eps) * energy Sc s <= energy Sx s <= (1 + eps) * energy Sc s.
Proof.
  pose proof eps_range as Er. pose proof (fun e => alike_ratio c x margin e M A B) as Q. split.
  - assert (K : 0 < / (1 - eps)) by (apply Rinv_0_lt_compat; lra).
    assert (L : energy Sc s <= / (1 - eps) * energy Sx s).
    { apply (softer x c Sx Sc _ s Yx px Ix Ic K). intros e. destruct (Q e) as (Q1 & _).
      apply Rmult_le_reg_l with (1 - eps); [lra|]. rewrite <- Rmult_assoc, Rinv_r, Rmult_1_l by lra. exact Q1. }
    replace (energy Sx s) with ((1 - eps) * (/ (1 - eps) * energy Sx s)) by (field; repeat split; lra). apply Rmult_le_compat_l; lra.
  - apply (softer c x Sc Sx _ s Yc pc Ic Ix); [lra|]. intros e. apply (Q e).
Qed.
Lemma stiff_within s : nonzero6 s -> within eps (energy x s) (energy c s).
Proof. intros N. split; [now apply px|]. apply alike_ratio; assumption. Qed.
Lemma compliant_within s : nonzero6 s -> within eps (/ energy Sx s) (/ energy Sc s).
Proof. intros N. apply within_inverse; [exact eps_range|apply (inverse_positive x Sx s px Ix N)|apply compliant]. Qed.

(** Both averages of the bulk and shear moduli, their mean, and Young's modulus of
    each of the three. *)
Theorem C109_averages :
  within eps (bulk_voigt x) (bulk_voigt c) /\ within eps (shear_voigt x) (shear_voigt c) /\
  within eps (bulk_reuss Sx) (bulk_reuss Sc) /\ within eps (shear_reuss Sx) (shear_reuss Sc) /\
  within eps (mean (bulk_voigt x) (bulk_reuss Sx)) (mean (bulk_voigt c) (bulk_reuss Sc)) /\
  within eps (mean (shear_voigt x) (shear_reuss Sx)) (mean (shear_voigt c) (shear_reuss Sc)) /\
  within eps (young_textbook (bulk_voigt x) (shear_voigt x)) (young_textbook (bulk_voigt c) (shear_voigt c)) /\
  within eps (young_textbook (bulk_reuss Sx) (shear_reuss Sx)) (young_textbook (bulk_reuss Sc) (shear_reuss Sc)) /\
  within eps (young_textbook (mean (bulk_voigt x) (bulk_reuss Sx)) (mean (shear_voigt x) (shear_reuss Sx)))
             (young_textbook (mean (bulk_voigt c) (bulk_reuss Sc)) (mean (shear_voigt c) (shear_reuss Sc))).
Proof.
  pose proof eps_range as Er.
  set (u := v6 1 1 1 0 0 0). set (d1 := v6 1 (-1) 0 0 0 0). set (d2 := v6 1 1 (-2) 0 0 0). set (d3 := v6 0 0 0 1 0 0). set (d4 := v6 0 0 0 0 1 0). set (d5 := v6 0 0 0 0 0 1).
  assert (Nu : nonzero6 u) by (apply v6_nonzero; left; lra). assert (N1 : nonzero6 d1) by (apply v6_nonzero; left; lra). assert (N2 : nonzero6 d2) by (apply v6_nonzero; left; lra).
  assert (N3 : nonzero6 d3) by (apply v6_nonzero; do 3 right; left; lra). assert (N4 : nonzero6 d4) by (apply v6_nonzero; do 4 right; left; lra). assert (N5 : nonzero6 d5) by (apply v6_nonzero; do 5 right; lra).
  assert (KVe : forall m, bulk_voigt m = / 9 * energy m u) by (intros m; unfold bulk_voigt, nine, sum_3, energy, apply6, u, v6; field).
  assert (GVe : forall m, symmetric6 m -> shear_voigt m = (energy m d1 / 2 + energy m d2 / 6 + 2 * energy m d3 + 2 * energy m d4 + 2 * energy m d5) / 10).
  { intros m Ym. unfold shear_voigt, trace3, off3, shears, energy, apply6, d1, d2, d3, d4, d5, v6. rewrite (Ym 1%nat 0%nat), (Ym 2%nat 0%nat), (Ym 2%nat 1%nat) by lia. field. }
  assert (KRe : forall m, bulk_reuss m = / energy m u).
  { intros m. unfold bulk_reuss. replace (nine m) with (energy m u) by (unfold nine, sum_3, energy, apply6, u, v6; ring). lra. }
  assert (GRe : forall m, symmetric6 m -> shear_reuss m = 5 / 2 * / (energy m d1 / 2 + energy m d2 / 6 + energy m d3 / 2 + energy m d4 / 2 + energy m d5 / 2)).
  { intros m Ym. unfold shear_reuss. set (q := energy m d1 / 2 + _ + _ + _ + _).
    replace (4 * trace3 m - 4 * off3 m + 3 * shears m) with (6 * q).
    - unfold Rdiv. rewrite Rinv_mult. lra.
    - unfold q, trace3, off3, shears, energy, apply6, d1, d2, d3, d4, d5, v6. rewrite (Ym 1%nat 0%nat), (Ym 2%nat 0%nat), (Ym 2%nat 1%nat) by lia. field. }
  pose proof (inverse_symmetric x Sx Yx Ix) as Ysx. pose proof (inverse_symmetric c Sc Yc Ic) as Ysc.
  assert (H1 : within eps (bulk_voigt x) (bulk_voigt c)) by (rewrite !KVe; apply within_scale; [lra|now apply stiff_within]).
  assert (H2 : within eps (shear_voigt x) (shear_voigt c)).
  { rewrite !GVe by assumption. destruct (stiff_within d1 N1) as (a1 & b1 & c1), (stiff_within d2 N2) as (a2 & b2 & c2), (stiff_within d3 N3) as (a3 & b3 & c3), (stiff_within d4 N4) as (a4 & b4 & c4), (stiff_within d5 N5) as (a5 & b5 & c5).
    split; lra. }
  assert (H3 : within eps (bulk_reuss Sx) (bulk_reuss Sc)) by (rewrite !KRe; now apply compliant_within).
  assert (H4 : within eps (shear_reuss Sx) (shear_reuss Sc)).
  { rewrite !GRe by assumption. apply within_scale; [lra|]. apply within_inverse; [exact Er| |].
    - pose proof (inverse_positive x Sx d1 px Ix N1). pose proof (inverse_positive x Sx d2 px Ix N2). pose proof (inverse_positive x Sx d3 px Ix N3). pose proof (inverse_positive x Sx d4 px Ix N4). pose proof (inverse_positive x Sx d5 px Ix N5). lra.
    - pose proof (compliant d1). pose proof (compliant d2). pose proof (compliant d3). pose proof (compliant d4). pose proof (compliant d5). split; lra. }
  assert (H5 := within_mean _ _ _ _ _ H1 H3). assert (H6 := within_mean _ _ _ _ _ H2 H4).
  do 6 (split; [assumption|]). split; [|split]; apply within_young; assumption.
Qed.
(** Young's modulus along every direction and the shear modulus in every plane along
    every direction, so also their least and greatest values. *)
Theorem C109_directions : (forall a, dot a a = 1 -> within eps (E_of Sx a) (E_of Sc a)) /\
  forall a b, dot a a = 1 -> dot b b = 1 -> dot a b = 0 -> within eps (shear_of Sx a b) (shear_of Sc a b).
Proof.
  split.
  - intros a Ha. unfold E_of. rewrite !(proj1 (C31_energies _ a a)). unfold Rdiv. rewrite !Rmult_1_l. now apply compliant_within, uniaxial_nonzero.
  - intros a b Ha Hb Hab. unfold shear_of. rewrite !(proj2 (C31_energies _ a b)). unfold Rdiv. rewrite !Rmult_1_l. now apply compliant_within, shear_nonzero.
Qed.
Theorem C109_extremes m0 m1 u0 u1 m0' m1' u0' u1' : extremes (E_of Sx) m0 m1 u0 u1 -> extremes (E_of Sc) m0' m1' u0' u1' -> within eps m0 m0' /\ within eps m1 m1'.
Proof.
  intros (a & b & <- & <- & H) (a' & b' & <- & <- & H'). destruct C109_directions as (Q & _). pose proof eps_range as Er.
  assert (U : forall y z, y <= z -> (1 - eps) * y <= (1 - eps) * z) by (intros; apply Rmult_le_compat_l; lra).
  assert (U' : forall y z, y <= z -> (1 + eps) * y <= (1 + eps) * z) by (intros; apply Rmult_le_compat_l; lra).
  pose proof (Q u0 a) as (P0 & L0 & R0). pose proof (Q u1 b) as (P1 & L1 & R1). pose proof (Q u0' a') as (P2 & L2 & R2). pose proof (Q u1' b') as (P3 & L3 & R3).
  pose proof (H' u0 a) as (E1 & E2). pose proof (H' u1 b) as (E3 & E4). pose proof (H u0' a') as (F1 & F2). pose proof (H u1' b') as (F3 & F4).
  apply U in F1. apply U' in F4. split; (split; [assumption|split; lra]).
Qed.
Theorem C109_shear_extremes m0 m1 u0 u1 m0' m1' u0' u1' : pair_extremes (shear_of Sx) m0 m1 u0 u1 -> pair_extremes (shear_of Sc) m0' m1' u0' u1' -> within eps m0 m0' /\ within eps m1 m1'.
Proof.
  intros ((a & a1 & <-) & (b & b1 & <-) & H) ((a' & a1' & <-) & (b' & b1' & <-) & H'). destruct C109_directions as (_ & Q). pose proof eps_range as Er.
  assert (U : forall y z, y <= z -> (1 - eps) * y <= (1 - eps) * z) by (intros; apply Rmult_le_compat_l; lra).
  assert (U' : forall y z, y <= z -> (1 + eps) * y <= (1 + eps) * z) by (intros; apply Rmult_le_compat_l; lra).
  assert (Q' : forall y z, pair y z -> within eps (shear_of Sx y z) (shear_of Sc y z)) by (intros y z (Y1 & Y2 & Y3); now apply Q).
  pose proof (Q' _ _ a1) as (P0 & L0 & R0). pose proof (Q' _ _ b1) as (P1 & L1 & R1). pose proof (Q' _ _ a1') as (P2 & L2 & R2). pose proof (Q' _ _ b1') as (P3 & L3 & R3).
  pose proof (H' _ _ a1) as (E1 & E2). pose proof (H' _ _ b1) as (E3 & E4). pose proof (H _ _ a1') as (F1 & F2). pose proof (H _ _ b1') as (F3 & F4).
  apply U in F1. apply U' in F4. split; (split; [assumption|split; lra]).
Qed.
(** Linear compressibilities and transverse strains change by a fraction of the
    compliances at hand. *)
Lemma coupled p q : Rabs (dot6 p (apply6 Sx q) - dot6 p (apply6 Sc q)) <= eps / 2 * (energy Sc p + energy Sc q).
Proof.
  pose proof (inverse_symmetric x Sx Yx Ix) as Ysx. pose proof (inverse_symmetric c Sc Yc Ic) as Ysc.
  pose proof (compliant (fun i => p i - 1 * q i)) as P1. pose proof (compliant (fun i => p i - -1 * q i)) as P2. rewrite !energy_shift in P1, P2 by assumption.
  apply Rabs_le. split; lra.
Qed.
Theorem C109_couplings a b : dot a a = 1 -> dot b b = 1 ->
  Rabs (elongation Sx a - elongation Sc a) <= 500 * eps * (1 / bulk_reuss Sc + 1 / E_of Sc a) /\
  Rabs (poisson_of Sx a b / E_of Sx a - poisson_of Sc a b / E_of Sc a) <= eps / 2 * (1 / E_of Sc a + 1 / E_of Sc b).
Proof.
  intros Ha Hb. set (u := fun p : nat => match p with 0%nat | 1%nat | 2%nat => 1 | _ => 0 end).
  assert (Nu : nonzero6 u) by (exists 0%nat; split; [lia|cbn; lra]).
  assert (Ee : forall S0 y, energy S0 (uniaxial_stress y) <> 0 -> 1 / E_of S0 y = energy S0 (uniaxial_stress y)).
  { intros S0 y N. unfold E_of. rewrite (proj1 (C31_energies _ y y)). field. exact N. }
  assert (N : forall y, dot y y = 1 -> energy Sc (uniaxial_stress y) <> 0) by (intros y Hy; pose proof (inverse_positive c Sc _ pc Ic (uniaxial_nonzero y Hy)); lra).
  assert (N' : energy Sx (uniaxial_stress a) <> 0) by (pose proof (inverse_positive x Sx _ px Ix (uniaxial_nonzero a Ha)); lra).
  rewrite !Ee by (apply N; assumption). split.
  - assert (Ke : 1 / bulk_reuss Sc = energy Sc u).
    { unfold bulk_reuss. replace (nine Sc) with (energy Sc u) by (unfold nine, sum_3, energy, apply6, u; ring). pose proof (inverse_positive c Sc u pc Ic Nu). field. lra. }
    rewrite Ke. pose proof (coupled (uniaxial_stress a) u) as Q.
    assert (Le : forall S0, elongation S0 a = 1000 * dot6 (uniaxial_stress a) (apply6 S0 u)) by (intros S0; unfold elongation, dot6, uniaxial_stress; cbn [voigt_stress]; fold u; ring).
    rewrite !Le. apply Rabs_le_inv in Q. apply Rabs_le. split; lra.
  - pose proof (coupled (uniaxial_stress a) (uniaxial_stress b)) as Q.
    assert (Pe : forall S0, energy S0 (uniaxial_stress a) <> 0 -> poisson_of S0 a b / E_of S0 a = - dot6 (uniaxial_stress a) (apply6 S0 (uniaxial_stress b))).
    { intros S0 Nz. replace (poisson_of S0 a b / E_of S0 a) with (- loop_aabb (S_ijkl S0) a b).
      - f_equal. unfold loop_aabb, dot6, uniaxial_stress, apply6, sum3. open_S. cbn [voigt_stress]. field.
      - unfold poisson_of, E_of. rewrite (proj1 (C31_energies _ a a)). field. exact Nz. }
    rewrite !Pe by (exact N' || apply N; assumption). apply Rabs_le_inv in Q. apply Rabs_le. split; lra.
Qed.
(** The three waves along any direction, in order: the products of density and squared
    velocity, and the velocities when the densities are close by a fraction too. *)
Theorem C109_waves rho rho' n w0 w1 w2 s0 s1 s2 u0 u1 u2 v0 v1 v2 : 0 < rho -> 0 < rho' ->
  travels x rho n w0 s0 -> travels x rho n w1 s1 -> travels x rho n w2 s2 -> orthonormal3 w0 w1 w2 -> s0 <= s1 <= s2 ->
  travels c rho' n u0 v0 -> travels c rho' n u1 v1 -> travels c rho' n u2 v2 -> orthonormal3 u0 u1 u2 -> v0 <= v1 <= v2 ->
  (within eps (rho * s0 ^ 2) (rho' * v0 ^ 2) /\ within eps (rho * s1 ^ 2) (rho' * v1 ^ 2) /\ within eps (rho * s2 ^ 2) (rho' * v2 ^ 2)) /\
  forall delta, delta < 1 -> within delta rho rho' -> let e := (eps + delta) / (1 - delta) in within e s0 v0 /\ within e s1 v1 /\ within e s2 v2.
Proof.
  intros Hr Hr' W0 W1 W2 WO WV U0 U1 U2 UO UV. pose proof eps_range as Er.
  assert (K : 0 < / (1 - eps)) by (apply Rinv_0_lt_compat; lra).
  assert (Hu : forall z, dot z z = 1 -> wave_energy c n z <= (1 + eps) * wave_energy x n z + 0).
  { intros z _. unfold wave_energy. pose proof (proj2 (alike_ratio c x margin (wave_strain n z) M A B)). lra. }
  assert (Hl : forall z, dot z z = 1 -> wave_energy x n z <= / (1 - eps) * wave_energy c n z + 0).
  { intros z _. unfold wave_energy. pose proof (proj1 (alike_ratio c x margin (wave_strain n z) M A B)) as Q.
    apply Rmult_le_reg_l with (1 - eps); [lra|]. set (y := energy c _) in *. replace ((1 - eps) * (/ (1 - eps) * (1000 * y) + 0)) with (1000 * y) by (field; repeat split; lra). lra. }
  destruct (risen_by x c rho rho' n w0 w1 w2 u0 u1 u2 s0 s1 s2 v0 v1 v2 (1 + eps) 0 ltac:(lra) Hu Hr Hr' W0 W1 W2 WO WV U0 U1 U2 UO UV) as (P0 & P1 & P2).
  destruct (risen_by c x rho' rho n u0 u1 u2 w0 w1 w2 v0 v1 v2 s0 s1 s2 (/ (1 - eps)) 0 K Hl Hr' Hr U0 U1 U2 UO UV W0 W1 W2 WO WV) as (Q0 & Q1 & Q2).
  assert (One : forall s v, 0 < s -> rho' * v ^ 2 <= (1 + eps) * (rho * s ^ 2) + 0 -> rho * s ^ 2 <= / (1 - eps) * (rho' * v ^ 2) + 0 -> within eps (rho * s ^ 2) (rho' * v ^ 2)).
  { intros s v Hs L1 L2. split; [apply Rmult_lt_0_compat; [exact Hr|apply pow_lt, Hs]|]. split; [|lra].
    replace (rho' * v ^ 2) with ((1 - eps) * (/ (1 - eps) * (rho' * v ^ 2))) by (field; repeat split; lra). apply Rmult_le_compat_l; lra. }
  destruct W0 as (S0 & _), W1 as (S1 & _), W2 as (S2 & _), U0 as (V0 & _), U1 as (V1 & _), U2 as (V2 & _).
  pose proof (One _ _ S0 P0 Q0) as O0. pose proof (One _ _ S1 P1 Q1) as O1. pose proof (One _ _ S2 P2 Q2) as O2.
  split; [split; [exact O0|split; [exact O1|exact O2]]|].
  intros delta D (_ & D1 & D2) e.
  assert (D0 : 0 <= delta) by (apply Rmult_le_reg_r with rho; lra).
  assert (Ee : (1 - delta) * e = eps + delta) by (unfold e; field; repeat split; lra).
  assert (E0 : 0 <= e) by (apply Rmult_le_reg_l with (1 - delta); lra).
  assert (Two : forall s v, 0 < s -> 0 < v -> within eps (rho * s ^ 2) (rho' * v ^ 2) -> within e s v).
  { intros s v Hs Hv (_ & L & H). split; [exact Hs|].
    assert (PV : 0 < v ^ 2) by (apply pow_lt, Hv). assert (PS : 0 < s ^ 2) by (apply pow_lt, Hs).
    assert (T1 : (1 - delta) * rho * v ^ 2 <= rho' * v ^ 2) by (apply Rmult_le_compat_r; lra).
    assert (T2 : rho' * v ^ 2 <= (1 + delta) * rho * v ^ 2) by (apply Rmult_le_compat_r; lra).
    assert (X1 : (1 - delta) * v ^ 2 <= (1 + eps) * s ^ 2) by (apply Rmult_le_reg_l with rho; lra).
    assert (X2 : (1 - eps) * s ^ 2 <= (1 + delta) * v ^ 2) by (apply Rmult_le_reg_l with rho; lra).
    assert (Y1 : v ^ 2 <= (1 + e) * s ^ 2).
    { apply Rmult_le_reg_l with (1 - delta); [lra|]. replace ((1 - delta) * ((1 + e) * s ^ 2)) with (((1 - delta) + (1 - delta) * e) * s ^ 2) by ring. rewrite Ee. lra. }
    assert (Y2 : (1 - e) * s ^ 2 <= v ^ 2).
    { apply Rmult_le_reg_l with (1 + delta); [lra|]. assert (0 <= delta * e * s ^ 2) by (apply Rmult_le_pos; [now apply Rmult_le_pos|lra]).
      replace ((1 + delta) * ((1 - e) * s ^ 2)) with ((1 + delta - (1 - delta) * e) * s ^ 2 - 2 * (delta * e * s ^ 2)) by ring. rewrite Ee. lra. }
    split.
    - destruct (Rle_lt_dec 1 e) as [G|G]; [assert (0 <= (e - 1) * s) by (apply Rmult_le_pos; lra); lra|].
      apply Rsqr_incr_0; unfold Rsqr; [|apply Rmult_le_pos; lra|lra].
      assert (0 <= e * (1 - e) * s ^ 2) by (apply Rmult_le_pos; [apply Rmult_le_pos; lra|lra]). replace ((1 - e) * s * ((1 - e) * s)) with ((1 - e) * s ^ 2 - e * (1 - e) * s ^ 2) by ring. lra.
    - apply Rsqr_incr_0; unfold Rsqr; [|lra|apply Rmult_le_pos; lra].
      assert (0 <= e * (1 + e) * s ^ 2) by (apply Rmult_le_pos; [apply Rmult_le_pos; lra|lra]). replace ((1 + e) * s * ((1 + e) * s)) with ((1 + e) * s ^ 2 + e * (1 + e) * s ^ 2) by ring. lra. }
  split; [|split]; apply Two; assumption.
Qed.
End Pair.

(** ** From CRYSTAL to the report of `quantas soec` *)
Section Report.
Variable t : CliModel.texts.
Variable round_abs : nat -> R -> N.
Hypothesis round_near : forall k x, (Rabs (IZR (Z.of_N (round_abs k x)) - Rabs x * 10 ^ k) <= 1 / 2)%R.
Variable is_text : string -> bool.
Variables (inverse : mat6 -> option mat6) (eigenvalues : mat6 -> list R).
Variable brute : (angles -> R) -> nat -> angles * R.
Variable powell : (R -> R) -> R.
Variable velocities : mat6 -> R -> angles -> list R.
Variables (time_line : string) (float_text : R -> string) (encode : h5 -> string).
Variable nan_case : SoecIOModel.data -> CliModel.method (string + CliModel.job).
Variables (punit : string) (pol plt mpl : bool) (o2 : option string) (silent d : bool) (a2 : CliModel.result bool).
Variables (f : string) (o : option string) (a : string) (w : CliModel.world).
Notation ip := (SoecInpgenModel.input_path f o).
Notation soec := (soec_main inverse eigenvalues brute powell velocities time_line float_text encode nan_case punit pol plt mpl ip o2 silent d a2).
(** The averages in the log of the second command against those of the moduli which
    the output prints. *)
Theorem C109_report content x rho Sm Sx margin : CliModel.fs w f = CliModel.File content -> crystal_output is_text content x rho -> room punit o2 a2 f o a w ->
  solved inverse eigenvalues (kept round_abs (mirrored x)) Sm -> 3e-4 < margin -> stable_by margin (mirrored x) -> inverse6 (mirrored x) Sx ->
  exists v v' names l1 l2 l3 K1 G1 K2 G2,
  SoecInpgenModel.soec_inpgen t round_abs is_text SoecInpgenModel.Crystal f o (CliModel.Ok a) w = (CliModel.Ok tt, v) /\ soec v = (CliModel.Ok tt, v') /\
  logged punit ip o2 v' ("Average properties" :: names ++ [l1; l2; l3]) /\ row5 "Voigt" K1 G1 l1 /\ row5 "Reuss" K2 G2 l2 /\ row5 "Hill" (mean K1 K2) (mean G1 G2) l3 /\
  let e := 3e-4 / margin in
  (within e (bulk_voigt (mirrored x)) K1 /\ within e (shear_voigt (mirrored x)) G1 /\ within e (bulk_reuss Sx) K2 /\ within e (shear_reuss Sx) G2 /\
   within e (young_textbook (bulk_voigt (mirrored x)) (shear_voigt (mirrored x))) (young_textbook K1 G1) /\
   within e (young_textbook (bulk_reuss Sx) (shear_reuss Sx)) (young_textbook K2 G2)) /\
  let K := mean (bulk_voigt (mirrored x)) (bulk_reuss Sx) in let G := mean (shear_voigt (mirrored x)) (shear_reuss Sx) in
  (within e K (mean K1 K2) /\ within e G (mean G1 G2) /\ within e (young_textbook K G) (young_textbook (mean K1 K2) (mean G1 G2))) /\
  (5e-2 < rho -> exists rho' ls lp vs vp, Rabs (rho' - rho) <= 5e-2 /\ logged punit ip o2 v' ["Average (VRH) wave velocities"; ls; lp] /\
    says ls [Word "-"; Word "Transversal"; Word "(Vs):"; Decimals 5 vs; Word "km/s"] /\ says lp [Word "-"; Word "Longitudinal"; Word "(Vp):"; Decimals 5 vp; Word "km/s"] /\ 0 < vs < vp /\
    within e (1000 * G) (rho' * vs ^ 2) /\ within e (1000 * (K + 4 / 3 * G)) (rho' * vp ^ 2)).
Proof.
  intros F C R0 S0 M B Ix.
  destruct (C101_elastic t round_abs round_near is_text inverse eigenvalues brute powell velocities time_line float_text encode nan_case punit pol plt mpl o2 silent d a2 f o a w content x rho Sm F C R0 S0)
    as (v & v' & E & E' & _ & (_ & _ & _ & _ & _ & Av & _) & Y & A & Dn & _ & _ & St).
  destruct (Av (St margin M B)) as ((names & l1 & l2 & l3 & L & L1 & L2 & L3) & Wv & _).
  destruct (C109_averages (mirrored x) (kept round_abs (mirrored x)) Sx Sm margin (mirrored_symmetric x) Y A M B Ix (solved_inverted _ _ _ _ S0)) as (H1 & H2 & H3 & H4 & H5 & H6 & H7 & H8 & H9).
  exists v, v', names, l1, l2, l3, (bulk_voigt (kept round_abs (mirrored x))), (shear_voigt (kept round_abs (mirrored x))), (bulk_reuss Sm), (shear_reuss Sm).
  split; [exact E|]. split; [exact E'|]. split; [exact L|]. split; [exact L1|]. split; [exact L2|]. split; [exact L3|].
  intros e. split; [do 5 (split; [assumption|]); assumption|]. intros K G. split; [split; [exact H5|]; split; [exact H6|exact H9]|].
  intros D. assert (D' : 0 < kept_density round_abs rho) by (apply Rabs_le_inv in Dn; lra).
  destruct (Wv D') as (ls & lp & vs & vp & W1 & W2 & W3 & W4 & W5 & W6). exists (kept_density round_abs rho), ls, lp, vs, vp.
  split; [exact Dn|]. split; [exact W1|]. split; [exact W2|]. split; [exact W3|]. split; [exact W4|].
  split; [rewrite W5; apply within_scale; [lra|exact H6]|].
  match type of W6 with _ = 1000 * ?k => match type of W5 with _ = 1000 * ?g => replace (kept_density round_abs rho * vp ^ 2) with (1000 * (k + 4 / 3 * g)) by lra end end.
  apply within_scale; [lra|]. destruct H5 as (a1 & b1 & c1), H6 as (a2' & b2 & c2). fold K G e in a1, b1, c1, a2', b2, c2. split; lra.
Qed.
(** A margin is needed: of a soft crystal the file may keep two thirds of every
    modulus only. *)
Theorem C109_soft_refuted : let x : mat6 := fun i j => if (i =? j)%nat then 149e-6 else 0 in
  symmetric6 x /\ stable_by 1e-4 x /\ ~ within (3 / 10) (bulk_voigt x) (bulk_voigt (kept round_abs x)).
Proof.
  intros x. split; [|split].
  - intros p q _ _. unfold x. now rewrite Nat.eqb_sym.
  - intros e. unfold energy, apply6, length2, x. cbn [Nat.eqb].
    pose proof (Rle_0_sqr (e 0%nat)). pose proof (Rle_0_sqr (e 1%nat)). pose proof (Rle_0_sqr (e 2%nat)). pose proof (Rle_0_sqr (e 3%nat)). pose proof (Rle_0_sqr (e 4%nat)). pose proof (Rle_0_sqr (e 5%nat)). unfold Rsqr in *. lra.
  - assert (Z1 : forall i j, (i < 6)%nat -> (j < 6)%nat -> kept round_abs x i j = if (i =? j)%nat then 1e-4 else 0).
    { intros i j Hi Hj. unfold kept. destruct (Nat.ltb_spec i 6); [|lia]. destruct (Nat.ltb_spec j 6); [|lia]. cbn [andb]. unfold SoecIOProps.rounded. rewrite SoecIOProps.powerRZ_inverse.
      pose proof (round_near 4 (x i j)) as Q. unfold x in *. destruct (Nat.eqb_spec i j).
      - rewrite (Rabs_right (149e-6)) in Q by lra. set (n := round_abs 4%nat (149e-6)) in *. assert (Nn : Z.of_N n = 1%Z).
        { simpl pow in Q. apply Rabs_le_inv in Q. assert (X1 : IZR (Z.of_N n) < 2) by lra. assert (X2 : 0 < IZR (Z.of_N n)) by lra. apply lt_IZR in X1, X2. lia. }
        rewrite Nn. unfold SoecIOModel.negative. destruct (Rlt_dec (149e-6) 0); [exfalso; lra|]. simpl. lra.
      - rewrite Rabs_R0 in Q. set (n0 := round_abs 4 0) in *. assert (Nn : Z.of_N n0 = 0%Z).
        { apply Rabs_le_inv in Q. assert (X1 : IZR (Z.of_N n0) < 1) by lra. apply lt_IZR in X1. lia. }
        rewrite Nn. simpl. lra. }
    intros (_ & H & _). unfold bulk_voigt, nine, sum_3 in H. rewrite !Z1 in H by lia. unfold x in H. cbn [Nat.eqb] in H. lra.
Qed.
End Report.

(** * Concrete cases *)
(** Two glasses which differ by 1e-5 GPa, one of which a file can hold. *)
Definition near_glass : mat6 := isotropic_C (5 + 1e-5) 3.
Example C109_instance : symmetric6 near_glass /\ symmetric6 glass /\ alike glass near_glass /\ stable_by 3 near_glass /\ inverse6 near_glass (isotropic_S (5 + 1e-5) 3) /\ inverse6 glass (isotropic_S 5 3) /\
  within (1e-4) (bulk_reuss (isotropic_S (5 + 1e-5) 3)) 5 /\ (bulk_reuss (isotropic_S 5 3) = 5 /\ bulk_reuss (isotropic_S (5 + 1e-5) 3) = 5 + 1e-5).
Proof.
  destruct glass_facts as (Y & Z & I & _ & E).
  assert (Q : forall K, 0 < K -> bulk_reuss (isotropic_S K 3) = K).
  { intros K HK. unfold bulk_reuss, nine, sum_3, isotropic_S, young_textbook, poisson_textbook. field. repeat split; lra. }
  split; [|split; [exact Y|split; [|split; [|split; [|split; [exact I|]]]]]].
  - intros p q Hp Hq. destruct p as [|[|[|[|[|[|p]]]]]]; try lia; destruct q as [|[|[|[|[|[|q]]]]]]; try lia; reflexivity.
  - intros i j Hi Hj. rewrite E by assumption. unfold near_glass. destruct i as [|[|[|[|[|[|p]]]]]]; try lia; destruct j as [|[|[|[|[|[|q]]]]]]; try lia; cbn [isotropic_C]; apply Rabs_le; split; lra.
  - intros e. unfold energy, apply6, length2, near_glass. cbn [isotropic_C].
    pose proof (Rle_0_sqr (e 0%nat + e 1%nat + e 2%nat)). pose proof (Rle_0_sqr (e 0%nat)). pose proof (Rle_0_sqr (e 1%nat)). pose proof (Rle_0_sqr (e 2%nat)). unfold Rsqr in *. lra.
  - intros p r Hp Hr. split; [|apply isotropic_left; lra || lia].
    unfold mul6, delta, near_glass. do 6 (destruct p as [|p]; [do 6 (destruct r as [|r]; [cbn [isotropic_S isotropic_C Nat.eqb]; unfold young_textbook, poisson_textbook; field; lra|]); lia|]). lia.
  - rewrite !Q by lra. split; [split; [lra|split; lra]|split; reflexivity].
Qed.
(** The glass of C101, whose moduli the file holds exactly. *)
Example C109_report_instance : let w := disk_of "/work/g.out" glass_out in
  exists v v' names l1 l2 l3 K1 G1 K2 G2, SoecInpgenModel.soec_inpgen (CliModel.Build_texts "" "" "" "" "" "" "") scaled (fun _ => true) SoecInpgenModel.Crystal "/work/g.out" None (CliModel.Ok "Glass, B3LYP") w = (CliModel.Ok tt, v) /\
  soec_main glass_inverse (fun _ => [3; 3; 3; 6; 6; 15]%R) search_origin (fun g => g (PI / 2)%R) (fun _ _ _ => [2; 2; 4]%R)
    "Calculation time: 1.0 s" (fun _ => "2500.0") (fun h => "h5") (fun _ => ([], CliModel.Raises "")) "GPa" true false true "/work/g_soec_input.dat" None true false (CliModel.Ok false) v = (CliModel.Ok tt, v') /\
  logged "GPa" "/work/g_soec_input.dat" None v' ("Average properties" :: names ++ [l1; l2; l3]) /\ row5 "Voigt" K1 G1 l1 /\ row5 "Reuss" K2 G2 l2 /\
  within (1e-4) 5 K1 /\ within (1e-4) 3 G1 /\ within (1e-4) 5 K2 /\ within (1e-4) 3 G2.
Proof.
  intros w. destruct glass_facts as (Y & Z & I & _ & E).
  assert (Mi : forall p q, (p < 6)%nat -> (q < 6)%nat -> mirrored glass p q = glass p q).
  { intros i j Hi Hj. unfold mirrored. destruct (Nat.le_ge_cases i j); [rewrite Nat.min_l, Nat.max_r by lia; reflexivity|rewrite Nat.min_r, Nat.max_l by lia; now apply Y]. }
  assert (SB : stable_by 3 (mirrored glass)).
  { intros e. unfold energy, apply6, length2, mirrored, glass. cbn [Nat.min Nat.max nth].
    pose proof (Rle_0_sqr (e 0%nat + e 1%nat + e 2%nat)). pose proof (Rle_0_sqr (e 0%nat)). pose proof (Rle_0_sqr (e 1%nat)). pose proof (Rle_0_sqr (e 2%nat)). unfold Rsqr in *. lra. }
  destruct (C109_report (CliModel.Build_texts "" "" "" "" "" "" "") scaled scaled_near (fun _ => true) glass_inverse (fun _ => [3; 3; 3; 6; 6; 15]%R) search_origin (fun g => g (PI / 2)%R) (fun _ _ _ => [2; 2; 4]%R)
    "Calculation time: 1.0 s" (fun _ => "2500.0") (fun h => "h5") (fun _ => ([], CliModel.Raises "")) "GPa" true false true None true false (CliModel.Ok false)
    "/work/g.out" None "Glass, B3LYP" w glass_out glass 2500 (isotropic_S 5 3) (isotropic_S 5 3) 3) as (v & v' & names & l1 & l2 & l3 & K1 & G1 & K2 & G2 & E1 & E2 & L & L1 & L2 & _ & (H1 & H2 & H3 & H4 & _) & _).
  - reflexivity.
  - exact glass_output.
  - apply room_of; try reflexivity. split; [reflexivity|exists "G"%char; split; reflexivity].
  - rewrite glass_kept. exact glass_solved.
  - lra.
  - exact SB.
  - intros p r Hp Hr. destruct (I p r Hp Hr) as (A & B). split; [rewrite <- A|rewrite <- B]; unfold mul6; rewrite !Mi by lia; reflexivity.
  - exists v, v', names, l1, l2, l3, K1, G1, K2, G2. do 5 (split; [assumption|]).
    replace (3e-4 / 3) with (1e-4) in * by lra.
    assert (B1 : bulk_voigt (mirrored glass) = 5) by (unfold bulk_voigt, nine, sum_3, mirrored, glass; cbn [Nat.min Nat.max nth]; lra).
    assert (B2 : shear_voigt (mirrored glass) = 3) by (unfold shear_voigt, trace3, off3, shears, mirrored, glass; cbn [Nat.min Nat.max nth]; lra).
    assert (B3 : bulk_reuss (isotropic_S 5 3) = 5) by (unfold bulk_reuss, nine, sum_3, isotropic_S, young_textbook, poisson_textbook; field).
    assert (B4 : shear_reuss (isotropic_S 5 3) = 3) by (unfold shear_reuss, trace3, off3, shears, isotropic_S, young_textbook, poisson_textbook; field).
    rewrite B1 in H1. rewrite B2 in H2. rewrite B3 in H3. rewrite B4 in H4. repeat split; first [apply H1|apply H2|apply H3|apply H4].
Qed.
(** The waves along the third axis of two glasses, with densities 2500 and 2500.04. *)
Lemma axis_wave K rho u l : 0 < rho -> 0 < l -> dot u u = 1 ->
  (forall i, (i < 3)%nat -> 1000 * sum_3 (fun j => sum_3 (fun k => sum_3 (fun m => C_ijkl (isotropic_C K 3) i j k m * vec3 0 0 1 j * vec3 0 0 1 m * u k))) = l * u i) ->
  travels (isotropic_C K 3) rho (vec3 0 0 1) u (sqrt (l / rho)).
Proof.
  intros Hr Hl U H. assert (P : 0 < l / rho) by (apply Rdiv_lt_0_compat; assumption). split; [now apply sqrt_lt_R0|]. split; [exact U|].
  intros i Hi. rewrite H by exact Hi. replace (sqrt (l / rho) ^ 2) with (l / rho); [field; lra|]. symmetry. apply pow2_sqrt. lra.
Qed.
Example C109_waves_instance : let e := (1e-4 + 2e-5) / (1 - 2e-5) in
  within (1e-4) (1000 * (9 + 1e-5)) 9000 /\ within e (sqrt (3000 / 2500)) (sqrt (3000 / 2500.04)) /\ within e (sqrt (1000 * (9 + 1e-5) / 2500)) (sqrt (9000 / 2500.04)).
Proof.
  intros e. destruct C109_instance as (Yx & Yc & Al & B & Ix & Ic & _).
  assert (Lo : sqrt (3000 / 2500) <= sqrt (1000 * (9 + 1e-5) / 2500)) by (apply sqrt_le_1; lra).
  assert (Lo' : sqrt (3000 / 2500.04) <= sqrt (9000 / 2500.04)) by (apply sqrt_le_1; lra).
  assert (T : forall K rho, 0 < K -> 0 < rho -> travels (isotropic_C K 3) rho (vec3 0 0 1) (vec3 1 0 0) (sqrt (3000 / rho)) /\ travels (isotropic_C K 3) rho (vec3 0 0 1) (vec3 0 1 0) (sqrt (3000 / rho)) /\
    travels (isotropic_C K 3) rho (vec3 0 0 1) (vec3 0 0 1) (sqrt (1000 * (K + 4) / rho))).
  { intros K rho HK Hr. split; [|split]; (apply axis_wave; [exact Hr|lra|unfold dot, vec3; cbn [nth]; ring|]);
    intros i Hi; destruct i as [|[|[|i]]]; try lia; unfold sum_3, C_ijkl, vm, vec3; cbn [nth isotropic_C]; field. }
  destruct (T (5 + 1e-5) 2500 ltac:(lra) ltac:(lra)) as (W0 & W1 & W2). destruct (T 5 2500.04 ltac:(lra) ltac:(lra)) as (U0 & U1 & U2).
  replace (5 + 1e-5 + 4) with (9 + 1e-5) in W2 by lra. replace (1000 * (5 + 4)) with 9000 in U2 by lra.
  assert (Tr : forall u v, travels (isotropic_C 5 3) 2500.04 (vec3 0 0 1) u v -> travels glass 2500.04 (vec3 0 0 1) u v).
  { intros u v (X1 & X2 & X3). split; [exact X1|]. split; [exact X2|]. intros i Hi. rewrite <- X3 by exact Hi. destruct glass_facts as (_ & _ & _ & _ & E). unfold sum_3, C_ijkl, vm, vec3.
    destruct i as [|[|[|i]]]; try lia; cbn [nth]; rewrite !E by lia; reflexivity. }
  assert (O : orthonormal3 (vec3 1 0 0) (vec3 0 1 0) (vec3 0 0 1)) by (unfold orthonormal3, dot, vec3; cbn [nth]; repeat split; ring).
  destruct (C109_waves near_glass glass 3 Al ltac:(lra) B 2500 2500.04 (vec3 0 0 1) _ _ _ _ _ _ _ _ _ _ _ _ ltac:(lra) ltac:(lra) W0 W1 W2 O ltac:(split; lra)
    (Tr _ _ U0) (Tr _ _ U1) (Tr _ _ U2) O ltac:(split; lra)) as ((_ & _ & P) & Q).
  replace (3e-4 / 3) with (1e-4) in * by lra.
  destruct (Q (2e-5) ltac:(lra)) as (Q0 & _ & Q2); [split; lra|]. rewrite !pow2_sqrt in P by lra.
  split; [|split; assumption]. replace (2500 * (1000 * (9 + 1e-5) / 2500)) with (1000 * (9 + 1e-5)) in P by field. replace (2500.04 * (9000 / 2500.04)) with 9000 in P by lra. exact P.
Qed.

Print Assumptions C109_averages.
Print Assumptions C109_directions.
Print Assumptions C109_extremes.
Print Assumptions C109_shear_extremes.
Print Assumptions C109_couplings.
Print Assumptions C109_waves.
Print Assumptions C109_report.
Print Assumptions C109_soft_refuted.
