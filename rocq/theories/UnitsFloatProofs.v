(** Rounding analysis of the unit conversions (behind C91). *)
From Coq Require Import String List Reals ZArith Bool Lra Lia.
From Flocq Require Import Core.
From Verif Require Import Py StatMechModel UnitsModel UnitsSpec UnitsProofs GridFloatModel GridFloatProofs HoFloatModel HoFloatSpec HoFloatProofs UnitsFloatModel UnitsFloatSpec.
Import ListNotations.
Open Scope string_scope.
Open Scope R_scope.

(** * A double that follows an exact number: relative error k u, size 2^n *)
Definition sized (e : R) (n : Z) : Prop := e = 0 \/ b2 (- n) <= Rabs e <= b2 n.
Definition tracks (r : fp) (e k : R) (n : Z) : Prop := exists x, r = Fin x /\ near x e k /\ sized e n.

Lemma sized_weaken e n m : sized e n -> (n <= m)%Z -> sized e m.
Proof.
  intros [H|[H1 H2]] L; [now left|right]. split; [apply Rle_trans with (b2 (- n)); [bp|exact H1]|apply Rle_trans with (b2 n); [exact H2|bp]].
Qed.
Lemma sized_mul e f n m : sized e n -> sized f m -> sized (e * f) (n + m).
Proof.
  intros [->|[A1 A2]] [->|[B1 B2]]; try (left; ring). right. rewrite Rabs_mult. pose proof (b2_pos (- n)). pose proof (b2_pos (- m)).
  replace (- (n + m))%Z with (- n + - m)%Z by lia. rewrite !bpow_plus. split; apply Rmult_le_compat; lra.
Qed.
Lemma sized_inv f m : sized f m -> f <> 0 -> sized (/ f) m.
Proof.
  intros [->|[B1 B2]] N; [contradiction|right]. pose proof (b2_pos (- m)). pose proof (b2_pos m). rewrite Rabs_inv. split.
  - rewrite bpow_opp. apply Rinv_le; lra.
  - replace (b2 m) with (/ b2 (- m)) by (rewrite bpow_opp; apply Rinv_inv). apply Rinv_le; lra.
Qed.
Lemma tracks_weaken r e k l n m : tracks r e k n -> k <= l -> (n <= m)%Z -> tracks r e l m.
Proof. intros (x & A & B & D) K L. exists x. split; [exact A|]. split; [now apply near_weaken with k|now apply sized_weaken with n]. Qed.
Lemma near_zero x k : near x 0 k -> x = 0.
Proof. unfold near. rewrite Rabs_R0, Rmult_0_r, Rminus_0_r. intros H. destruct (Req_dec x 0); [assumption|]. pose proof (Rabs_pos_lt _ H0). lra. Qed.
Lemma near_self_zero k : near 0 0 k.
Proof. unfold near. rewrite Rminus_0_r, Rabs_R0. lra. Qed.

Lemma rounded_tracks y e k n : near y e k -> 0 <= k <= 900 -> sized e n -> (n <= 900)%Z -> tracks (result y) e (k + 3) n.
Proof.
  intros H K Z L. destruct Z as [->|Z].
  - rewrite (near_zero _ _ H). exists 0. rewrite result_fin, rnd_0 by (rewrite Rabs_R0; left; apply b2_pos).
    split; [reflexivity|]. split; [apply near_self_zero|now left].
  - exists (rnd y). destruct (near_abs _ _ _ H ltac:(lra)) as [U _]. destruct (few_u k ltac:(lra)).
    assert (b2 n <= b2 900) by bp. pose proof (Rabs_pos e). split; [|split; [|now right]].
    + apply result_fin. apply Rle_trans with (b2 1 * b2 900); [|bp]. rewrite b2_1. pose proof (b2_pos 900).
      apply Rle_trans with ((1 + k * u) * Rabs e); [exact U|]. apply Rmult_le_compat; lra.
    + apply near_rnd_of; [exact H|lra|]. apply Rle_trans with (b2 (- n)); [bp|tauto].
Qed.
Lemma tracks_mul r q e f k l n m : tracks r e k n -> tracks q f l m -> 0 <= k -> 0 <= l -> k + l <= 800 -> (n + m <= 900)%Z ->
  tracks (fmul r q) (e * f) (k + l + 4) (n + m).
Proof.
  intros (x & -> & A & B) (y & -> & D & E) K L M NM. cbn [fmul]. replace (k + l + 4) with (k + l + 1 + 3) by ring.
  apply rounded_tracks; [apply near_mul; auto; lra|lra|now apply sized_mul|exact NM].
Qed.
Lemma tracks_div r q e f k l n m : tracks r e k n -> tracks q f l m -> f <> 0 -> 0 <= k -> 0 <= l -> k + l <= 800 -> (n + m <= 900)%Z ->
  tracks (npdiv r q) (e / f) (k + l + 5) (n + m).
Proof.
  intros (x & -> & A & B) (y & -> & D & E) F K L M NM. unfold npdiv. cbn [fdiv].
  assert (y <> 0).
  { intros ->. unfold near in D. rewrite Rminus_0_l, Rabs_Ropp in D. pose proof (Rabs_pos_lt _ F). destruct (few_u l ltac:(lra)). nra. }
  unfold Req_b. destruct (Req_EM_T y 0); [contradiction|]. replace (k + l + 5) with (k + l + 2 + 3) by ring.
  apply rounded_tracks; [apply near_div; auto; lra|lra|apply sized_mul; [exact B|now apply sized_inv]|exact NM].
Qed.
Lemma tracks_const c n : b2 (- n) <= c <= b2 n -> tracks (Fin c) c 0 n.
Proof.
  intros H. exists c. split; [reflexivity|]. split; [apply near_refl|right]. pose proof (b2_pos (- n)). rewrite Rabs_pos_eq; lra.
Qed.
Lemma tracks_positive r e k n : tracks r e k n -> 0 <= k <= 900 -> 0 < e -> exists x, r = Fin x /\ 0 < x.
Proof. intros (x & A & B & _) K P. exists x. split; [exact A|]. destruct (near_between _ _ _ B ltac:(lra) P). lra. Qed.

(** * Order and sign *)
Lemma fit_le a b : a <= b -> fle (fit a) (fit b).
Proof.
  intros L. unfold fit, Rlt_b. destruct (Rlt_dec (Rabs a) _) as [A|A]; destruct (Rlt_dec (Rabs b) _) as [B|B]; cbn [fle].
  - exact L.
  - destruct (Rlt_dec b 0) as [Z|Z]; [|exact I]. exfalso. apply B. rewrite Rabs_left by exact Z. rewrite Rabs_left in A by lra. lra.
  - destruct (Rlt_dec a 0) as [Z|Z]; [exact I|]. exfalso. apply A. rewrite Rabs_pos_eq by lra. rewrite Rabs_pos_eq in B by lra. lra.
  - destruct (Rlt_dec a 0) as [Z|Z]; [exact I|]. destruct (Rlt_dec b 0); [lra|exact I].
Qed.
Lemma result_le a b : a <= b -> fle (result a) (result b).
Proof. intros L. apply fit_le. now apply rnd_le. Qed.
Lemma fle_result_inf x : fle (result x) (Inf false).
Proof. unfold result, fit. destruct (Rlt_b _ _); [exact I|]. destruct (Rlt_b _ _); exact I. Qed.
Lemma fle_inf_result x : fle (Inf true) (result x).
Proof. unfold result, fit. destruct (Rlt_b _ _); [exact I|]. destruct (Rlt_b _ _); exact I. Qed.
Lemma pos_b y : 0 < y -> Req_b y 0 = false /\ Rlt_b y 0 = false.
Proof. intros H. unfold Req_b, Rlt_b. destruct (Req_EM_T y 0); [lra|]. destruct (Rlt_dec y 0); [lra|]. auto. Qed.
Lemma mul_le a b y : 0 < y -> fle a b -> fle (fmul a (Fin y)) (fmul b (Fin y)).
Proof.
  intros H. destruct (pos_b y H) as [E1 E2]. destruct a as [a|[|]|]; destruct b as [b|[|]|]; cbn [fle fmul]; try contradiction; rewrite ?E1, ?E2; cbn [xorb]; intros L; try exact I.
  - apply result_le. apply Rmult_le_compat_r; lra.
  - apply fle_result_inf.
  - apply fle_inf_result.
Qed.
Lemma mul_le_l a b y : 0 < y -> fle a b -> fle (fmul (Fin y) a) (fmul (Fin y) b).
Proof.
  intros H. destruct (pos_b y H) as [E1 E2]. destruct a as [a|[|]|]; destruct b as [b|[|]|]; cbn [fle fmul]; try contradiction; rewrite ?E1, ?E2; cbn [xorb]; intros L; try exact I.
  - apply result_le. apply Rmult_le_compat_l; lra.
  - apply fle_result_inf.
  - apply fle_inf_result.
Qed.
Lemma div_le a b y : 0 < y -> fle a b -> fle (npdiv a (Fin y)) (npdiv b (Fin y)).
Proof.
  intros H. destruct (pos_b y H) as [E1 E2]. unfold npdiv. destruct a as [a|[|]|]; destruct b as [b|[|]|]; cbn [fle fdiv]; try contradiction; rewrite ?E1, ?E2; cbn [xorb]; intros L; try exact I.
  - apply result_le. apply Rmult_le_compat_r; [left; now apply Rinv_0_lt_compat|exact L].
  - apply fle_result_inf.
  - apply fle_inf_result.
Qed.
Lemma add_le a b y : fle a b -> fle (fadd a (Fin y)) (fadd b (Fin y)).
Proof.
  destruct a as [a|[|]|]; destruct b as [b|[|]|]; cbn [fle fadd]; try contradiction; intros L; try exact I.
  - apply result_le. lra.
  - apply fle_result_inf.
  - apply fle_inf_result.
Qed.
Lemma sub_le a b y : fle a b -> fle (fsub a (Fin y)) (fsub b (Fin y)).
Proof. apply add_le. Qed.

Lemma rnd_opp x : rnd (- x) = - rnd x.
Proof. apply round_NE_opp. Qed.
Lemma result_opp x : result (- x) = fneg (result x).
Proof.
  unfold result, fit. rewrite rnd_opp, Rabs_Ropp. unfold Rlt_b. destruct (Rlt_dec (Rabs (rnd x)) _) as [H|H]; [reflexivity|]. cbn [fneg].
  f_equal. destruct (Rlt_dec (- rnd x) 0); destruct (Rlt_dec (rnd x) 0); try reflexivity; try lra.
  exfalso. apply H. replace (rnd x) with 0 by lra. rewrite Rabs_R0. apply b2_pos.
Qed.
Lemma mul_opp a y : 0 < y -> fmul (fneg a) (Fin y) = fneg (fmul a (Fin y)).
Proof.
  intros H. destruct (pos_b y H) as [E1 E2]. destruct a as [a|[|]|]; cbn [fneg fmul]; rewrite ?E1, ?E2; try reflexivity. rewrite <- result_opp. f_equal. ring.
Qed.
Lemma mul_opp_l a y : 0 < y -> fmul (Fin y) (fneg a) = fneg (fmul (Fin y) a).
Proof.
  intros H. destruct (pos_b y H) as [E1 E2]. destruct a as [a|[|]|]; cbn [fneg fmul]; rewrite ?E1, ?E2; try reflexivity. rewrite <- result_opp. f_equal. ring.
Qed.
Lemma div_opp a y : 0 < y -> npdiv (fneg a) (Fin y) = fneg (npdiv a (Fin y)).
Proof.
  intros H. destruct (pos_b y H) as [E1 E2]. unfold npdiv. destruct a as [a|[|]|]; cbn [fneg fdiv]; rewrite ?E1, ?E2; try reflexivity. rewrite <- result_opp. f_equal. unfold Rdiv. ring.
Qed.

(** * One stage of a conversion *)
Definition stage (exact : R -> string -> option R) (computed : fp -> string -> option fp) (dk : R) (dn : Z) : Prop :=
  forall r v k n s, tracks r v k n -> 0 <= k <= 200 -> (n + dn <= 900)%Z ->
  match exact v s with
  | Some e => exists r', computed r s = Some r' /\ tracks r' e (k + dk) (n + dn)
  | None => computed r s = None
  end.
Lemma stage_pair to to_f from from_f dk dn dk' dn' :
  stage to to_f dk dn -> stage from from_f dk' dn' -> 0 <= dk <= 50 -> (0 <= dn')%Z ->
  forall r v k n a b, tracks r v k n -> 0 <= k <= 100 -> (n + dn + dn' <= 900)%Z ->
  match (match to v a with None => None | Some e => from e b end) with
  | Some e => exists r', through (to_f r a) (fun t => from_f t b) = Some r' /\ tracks r' e (k + dk + dk') (n + dn + dn')
  | None => through (to_f r a) (fun t => from_f t b) = None
  end.
Proof.
  intros A B K N r v k n a b T K0 N0. specialize (A r v k n a T ltac:(lra) ltac:(lia)). destruct (to v a) as [e|].
  - destruct A as (r' & E & T'). rewrite E. cbn [through]. apply (B r' e (k + dk) (n + dn)%Z b T'); [lra|lia].
  - now rewrite A.
Qed.

Ltac num := repeat match goal with |- context [bpow radix2 (Zpos ?p)] => rewrite (b2_nat (Pos.to_nat p)) || idtac end.
Lemma small_const c n : (0 <= n)%Z -> 1 <= c <= 2 ^ Z.to_nat n -> tracks (Fin c) c 0 n.
Proof.
  intros N H. apply tracks_const. rewrite <- b2_nat, Z2Nat.id in H by exact N. split; [|tauto]. apply Rle_trans with 1; [|tauto]. rewrite <- b2_0. bp.
Qed.
Ltac small := apply small_const; [lia|]; unfold kilo, mega, giga, tera, gbar, mbar, kbar, bar; simpl; lra.
Lemma t_5 : tracks (Fin 5) 5 0 10. Proof. small. Qed.
Lemma t_100 : tracks (Fin 100) 100 0 10. Proof. small. Qed.
Lemma t_1000 : tracks (Fin 1000) 1000 0 10. Proof. small. Qed.
Lemma t_1 : tracks (Fin 1) 1 0 50. Proof. small. Qed.
Lemma t_kilo : tracks (Fin kilo) kilo 0 50. Proof. small. Qed.
Lemma t_mega : tracks (Fin mega) mega 0 50. Proof. small. Qed.
Lemma t_giga : tracks (Fin giga) giga 0 50. Proof. small. Qed.
Lemma t_tera : tracks (Fin tera) tera 0 50. Proof. small. Qed.
Lemma t_gbar : tracks (Fin gbar) gbar 0 50. Proof. small. Qed.
Lemma t_mbar : tracks (Fin mbar) mbar 0 50. Proof. small. Qed.
Lemma t_kbar : tracks (Fin kbar) kbar 0 50. Proof. small. Qed.
Lemma t_bar : tracks (Fin bar) bar 0 50. Proof. small. Qed.

Section Constants.
Variable C : fconstants.
Hypothesis PL : plausible C.
Lemma t_usual x : usual x -> tracks (Fin x) x 0 80.
Proof. intros H. exact (tracks_const x 80 H). Qed.
Lemma t_length x : b2 (-40) <= x <= b2 40 -> tracks (Fin x) x 0 40.
Proof. intros H. exact (tracks_const x 40 H). Qed.
Lemma t_cube x c : b2 (-40) <= x <= b2 40 -> near c (x ^ 3) 2 -> tracks (Fin c) (x ^ 3) 2 120.
Proof.
  intros H N. exists c. split; [reflexivity|]. split; [exact N|right]. pose proof (b2_pos (-40)). rewrite Rabs_pos_eq by (apply pow_le; lra).
  rewrite (b2_split (-80) (-40) (- (120))), (b2_split (-40) (-40) (-80)), (b2_split 80 40 120), (b2_split 40 40 80) by lia. simpl. rewrite Rmult_1_r.
  rewrite !Rmult_assoc. split; repeat apply Rmult_le_compat; try lra; repeat apply Rmult_le_pos; lra.
Qed.
Lemma usual_pos x : usual x -> 0 < x.
Proof. intros [H _]. pose proof (b2_pos (-80)). lra. Qed.
Lemma length_pos x : b2 (-40) <= x <= b2 40 -> 0 < x.
Proof. intros [H _]. pose proof (b2_pos (-40)). lra. Qed.
Lemma plausible_positive : positive_constants (kc C).
Proof. destruct PL. repeat split; auto using usual_pos, length_pos. Qed.
Lemma nz x : 0 < x -> x <> 0. Proof. lra. Qed.

Ltac known :=
  match goal with
  | |- tracks (Fin (N_A _)) _ _ _ => apply t_usual, p_N, PL
  | |- tracks (Fin (eV_J _)) _ _ _ => apply t_usual, p_eV, PL
  | |- tracks (Fin (Ha_J _)) _ _ _ => apply t_usual, p_Ha, PL
  | |- tracks (Fin (Ry_J _)) _ _ _ => apply t_usual, p_Ry, PL
  | |- tracks (Fin (c_ms _)) _ _ _ => apply t_usual, p_c, PL
  | |- tracks (Fin (Angstrom_m _)) _ _ _ => apply t_length, p_A, PL
  | |- tracks (Fin (Bohr_m _)) _ _ _ => apply t_length, p_B, PL
  | |- tracks (Fin (cube_A _)) _ _ _ => apply t_cube; [apply p_A, PL|apply p_cA, PL]
  | |- tracks (Fin (cube_B _)) _ _ _ => apply t_cube; [apply p_B, PL|apply p_cB, PL]
  | H : tracks ?r _ _ _ |- tracks ?r _ _ _ => exact H
  | |- tracks (Fin kilo) _ _ _ => apply t_kilo
  | |- tracks (Fin mega) _ _ _ => apply t_mega
  | |- tracks (Fin giga) _ _ _ => apply t_giga
  | |- tracks (Fin tera) _ _ _ => apply t_tera
  | |- tracks (Fin gbar) _ _ _ => apply t_gbar
  | |- tracks (Fin mbar) _ _ _ => apply t_mbar
  | |- tracks (Fin kbar) _ _ _ => apply t_kbar
  | |- tracks (Fin bar) _ _ _ => apply t_bar
  | |- tracks (Fin 1) _ _ _ => apply t_1
  | |- tracks (Fin 100) _ _ _ => apply t_100
  | |- tracks (Fin 1000) _ _ _ => apply t_1000
  end.
Ltac nonzero :=
  apply nz; repeat (apply Rmult_lt_0_compat || apply Rdiv_lt_0_compat || apply pow_lt);
  unfold kilo, mega, giga, tera, gbar, mbar, kbar, bar; try lra;
  first [apply usual_pos; destruct PL; assumption | apply length_pos; destruct PL; assumption].
Ltac follow :=
  lazymatch goal with
  | |- tracks (fmul _ _) _ _ _ => eapply tracks_mul; [follow|follow|lra|lra|lra|lia]
  | |- tracks (npdiv _ _) _ _ _ => eapply tracks_div; [follow|follow|nonzero|lra|lra|lra|lia]
  | |- _ => known
  end.
Ltac branches := repeat match goal with |- context [mem ?a ?b] => destruct (mem a b) end.
Ltac one := eexists; split; [reflexivity|]; eapply tracks_weaken; [follow|lra|lia].
Ltac run f g := intros r v k n s T K0 N0; unfold f, g; branches; try reflexivity; one.

Lemma s_to_hartree : stage (to_hartree (kc C)) (to_hartree_f C) 14 170.
Proof. run to_hartree to_hartree_f. Qed.
Lemma s_from_hartree : stage (from_hartree (kc C)) (from_hartree_f C) 13 170.
Proof. run from_hartree from_hartree_f. Qed.
Lemma s_to_pascal : stage to_pascal to_pascal_f 4 50.
Proof. run to_pascal to_pascal_f. Qed.
Lemma s_from_pascal : stage from_pascal from_pascal_f 5 50.
Proof. run from_pascal from_pascal_f. Qed.
Lemma s_to_wavenumber : stage (to_wavenumber (kc C)) (to_wavenumber_f C) 13 140.
Proof. run to_wavenumber to_wavenumber_f. Qed.
Lemma s_from_wavenumber : stage (from_wavenumber (kc C)) (from_wavenumber_f C) 13 140.
Proof. run from_wavenumber from_wavenumber_f. Qed.
Lemma s_to_metre : stage (to_metre (kc C)) (to_metre_f C) 4 40.
Proof. run to_metre to_metre_f. Qed.
Lemma s_from_metre : stage (from_metre (kc C)) (from_metre_f C) 5 40.
Proof. run from_metre from_metre_f. Qed.
Lemma s_to_metre3 : stage (to_metre3 (kc C)) (to_metre3_f C) 6 120.
Proof. run to_metre3 to_metre3_f. Qed.
Lemma s_from_metre3 : stage (from_metre3 (kc C)) (from_metre3_f C) 7 120.
Proof. run from_metre3 from_metre3_f. Qed.
End Constants.

(** * Temperatures: absolute errors in units of u W, W = |v| + 500 *)
Section Temperatures.
Variable W : R.
Hypothesis HW : 500 <= W <= b2 900.
Definition follows (r : fp) (e k M : R) : Prop := exists x, r = Fin x /\ Rabs (x - e) <= k * (u * W) /\ Rabs e <= M * W.
Lemma uW : 0 < u * W /\ b2 (-1075) <= u * W /\ u * W <= / 1000000000 * W.
Proof.
  pose proof u_pos. pose proof u_small. assert (0 < u * W) by (apply Rmult_lt_0_compat; lra). split; [assumption|]. split.
  - apply Rle_trans with (u * 1); [|apply Rmult_le_compat_l; lra]. rewrite Rmult_1_r. unfold u. bp.
  - apply Rmult_le_compat_r; lra.
Qed.
Lemma round_follows y e k M : Rabs (y - e) <= k * (u * W) -> Rabs e <= M * W -> 0 <= k <= 10000 -> 0 <= M <= 1000 -> follows (result y) e (k + M + 2) M.
Proof.
  intros H E K HM. destruct uW as (A & B & D). exists (rnd y).
  assert (Y : Rabs y <= M * W + k * (u * W)).
  { replace y with (e + (y - e)) by ring. eapply Rle_trans; [apply Rabs_triang|]. lra. }
  assert (kw : k * (u * W) <= W) by (apply Rle_trans with (10000 * (/ 1000000000 * W)); [apply Rmult_le_compat; lra|lra]).
  split; [|split; [|exact E]].
  - apply result_fin. apply Rle_trans with (b2 10 * b2 900); [|bp]. replace (b2 10) with 1024 by (change 10%Z with (Z.of_nat 10); rewrite b2_nat; simpl; lra).
    apply Rle_trans with (1001 * W); [|pose proof (b2_pos 900); lra]. assert (M * W <= 1000 * W) by (apply Rmult_le_compat_r; lra). lra.
  - pose proof (rnd_err y). replace (rnd y - e) with ((rnd y - y) + (y - e)) by ring. eapply Rle_trans; [apply Rabs_triang|].
    assert (u * Rabs y <= u * (M * W + W)) by (apply Rmult_le_compat_l; [left; apply u_pos|lra]).
    assert (u * Rabs y <= u * (M * W) + k * u * (u * W)).
    { eapply Rle_trans; [apply Rmult_le_compat_l; [left; apply u_pos|exact Y]|]. lra. }
    assert (k * u * (u * W) <= 1 * (u * W)).
    { apply Rmult_le_compat_r; [lra|]. pose proof u_small. pose proof u_pos. apply Rle_trans with (10000 * / 1000000000000000); [apply Rmult_le_compat; lra|lra]. }
    lra.
Qed.
Lemma follows_add r q e f k l M N : follows r e k M -> follows q f l N -> 0 <= k -> 0 <= l -> k + l <= 10000 -> 0 <= M -> 0 <= N -> M + N <= 1000 ->
  follows (fadd r q) (e + f) (k + l + (M + N) + 2) (M + N).
Proof.
  intros (x & -> & A & B) (y & -> & D & E) K L KL HM HN MN. cbn [fadd]. apply round_follows; try lra.
  - replace (x + y - (e + f)) with ((x - e) + (y - f)) by ring. eapply Rle_trans; [apply Rabs_triang|]. lra.
  - eapply Rle_trans; [apply Rabs_triang|]. lra.
Qed.
Lemma follows_neg r e k M : follows r e k M -> follows (fneg r) (- e) k M.
Proof.
  intros (x & -> & A & B). exists (- x). split; [reflexivity|]. replace (- x - - e) with (- (x - e)) by ring. now rewrite !Rabs_Ropp.
Qed.
Lemma follows_sub r q e f k l M N : follows r e k M -> follows q f l N -> 0 <= k -> 0 <= l -> k + l <= 10000 -> 0 <= M -> 0 <= N -> M + N <= 1000 ->
  follows (fsub r q) (e - f) (k + l + (M + N) + 2) (M + N).
Proof. intros A B. apply follows_neg in B. apply (follows_add _ _ _ _ _ _ _ _ A B). Qed.
Lemma follows_times r e k M c : follows r e k M -> 0 < c -> 0 <= k -> c * k <= 10000 -> 0 <= M -> c * M <= 1000 -> follows (fmul r (Fin c)) (e * c) (c * k + c * M + 2) (c * M).
Proof.
  intros (x & -> & A & B) PC K CK HM CM. cbn [fmul]. apply round_follows; try (split; [apply Rmult_le_pos|]); try lra.
  - replace (x * c - e * c) with ((x - e) * c) by ring. rewrite Rabs_mult, (Rabs_pos_eq c) by lra. replace (c * k * (u * W)) with (k * (u * W) * c) by ring. apply Rmult_le_compat_r; lra.
  - rewrite Rabs_mult, (Rabs_pos_eq c) by lra. replace (c * M * W) with (M * W * c) by ring. apply Rmult_le_compat_r; lra.
Qed.
Lemma follows_over r e k M c : follows r e k M -> 0 < c -> 0 <= k -> k / c <= 10000 -> 0 <= M -> M / c <= 1000 -> follows (npdiv r (Fin c)) (e / c) (k / c + M / c + 2) (M / c).
Proof.
  intros (x & -> & A & B) PC K CK HM CM. destruct (pos_b c PC) as [E1 _]. assert (IC : 0 < / c) by (now apply Rinv_0_lt_compat). unfold npdiv. cbn [fdiv]. rewrite E1. apply round_follows; try (split; [apply Rmult_le_pos|]); try lra.
  - replace (x / c - e / c) with ((x - e) * / c) by (field; lra). rewrite Rabs_mult, (Rabs_pos_eq (/ c)) by lra. replace (k / c * (u * W)) with (k * (u * W) * / c) by (field; lra). apply Rmult_le_compat_r; lra.
  - unfold Rdiv. rewrite Rabs_mult, (Rabs_pos_eq (/ c)) by lra. replace (M * / c * W) with (M * W * / c) by ring. apply Rmult_le_compat_r; lra.
Qed.
Lemma follows_weaken r e k M l N : follows r e k M -> k <= l -> M <= N -> follows r e l N.
Proof.
  intros (x & -> & A & B) K L. destruct uW as (P0 & _). exists x. split; [reflexivity|]. split; [eapply Rle_trans; [exact A|]|eapply Rle_trans; [exact B|]]; apply Rmult_le_compat_r; lra.
Qed.
Lemma follows_32 : follows (Fin 32) 32 0 (/ 10).
Proof. exists 32. split; [reflexivity|]. rewrite Rminus_diag_eq, Rabs_R0, Rabs_pos_eq by lra. lra. Qed.
Lemma follows_zero : follows zero_C zero_Celsius 2 (6 / 10).
Proof.
  unfold zero_C, zero_Celsius. exists (rnd (27315 / 100)). split; [reflexivity|]. destruct uW as (A & B & D). rewrite (Rabs_pos_eq (27315 / 100)) by lra. split; [|lra].
  eapply Rle_trans; [apply rnd_err|]. rewrite (Rabs_pos_eq (27315 / 100)) by lra.
  assert (u * (27315 / 100) <= u * W) by (apply Rmult_le_compat_l; [left; apply u_pos|lra]). lra.
Qed.

Definition t_stage (exact : R -> string -> option R) (computed : fp -> string -> option fp) (a b c d : R) : Prop :=
  forall r v k M s, follows r v k M -> 0 <= k <= 1000 -> 0 <= M <= 10 ->
  match exact v s with
  | Some e => exists r', computed r s = Some r' /\ follows r' e (a * k + 4 * a * M + b) (c * M + d)
  | None => computed r s = None
  end.
Ltac branches := repeat match goal with |- context [mem ?a ?b] => destruct (mem a b) end.
Ltac go :=
  lazymatch goal with
  | |- follows (fadd _ _) _ _ _ => eapply follows_add; [go|go|lra|lra|lra|lra|lra|lra]
  | |- follows (fsub _ _) _ _ _ => eapply follows_sub; [go|go|lra|lra|lra|lra|lra|lra]
  | |- follows (fmul _ _) _ _ _ => eapply follows_times; [go|lra|lra|lra|lra|lra]
  | |- follows (npdiv _ _) _ _ _ => eapply follows_over; [go|lra|lra|lra|lra|lra]
  | |- follows zero_C _ _ _ => apply follows_zero
  | |- follows (Fin 32) _ _ _ => apply follows_32
  | H : follows ?r _ _ _ |- follows ?r _ _ _ => exact H
  end.
Lemma s_to_kelvin : t_stage to_kelvin to_kelvin_f 1 10 1 1.
Proof. intros r v k M s T K HM. unfold to_kelvin, to_kelvin_f. branches; try reflexivity; eexists; (split; [reflexivity|]); eapply follows_weaken; [go|lra|lra| go|lra|lra |go|lra|lra|go|lra|lra]. Qed.
Lemma s_from_kelvin : t_stage from_kelvin from_kelvin_f (9 / 5) 20 (9 / 5) 2.
Proof. intros r v k M s T K HM. unfold from_kelvin, from_kelvin_f. branches; try reflexivity; eexists; (split; [reflexivity|]); eapply follows_weaken; [go|lra|lra| go|lra|lra |go|lra|lra|go|lra|lra]. Qed.
Lemma temperature_follows r v k M a b : follows r v k M -> 0 <= k <= 200 -> 0 <= M <= 8 ->
  match convert_temperature v a b with
  | Some e => exists r', convert_temperature_f r a b = Some r' /\ follows r' e (2 * k + 15 * M + 46) (2 * M + 4)
  | None => convert_temperature_f r a b = None
  end.
Proof.
  intros T K HM. unfold convert_temperature, convert_temperature_f. pose proof (s_to_kelvin r v k M a T ltac:(lra) ltac:(lra)) as A. destruct (to_kelvin v a) as [t|].
  - destruct A as (r' & E & T'). rewrite E. cbn [through]. pose proof (s_from_kelvin r' t _ _ b T' ltac:(lra) ltac:(lra)) as B. destruct (from_kelvin t b) as [e|]; [|exact B].
    destruct B as (r2 & E2 & T2). exists r2. split; [exact E2|]. eapply follows_weaken; [exact T2|lra|lra].
  - rewrite A. reflexivity.
Qed.
End Temperatures.
