(** Properties C33, C34, C67 (report sections) and C68 (polar cuts). *)
From Coq Require Import Reals List Lra Lia Arith Psatz String Bool.
From Verif Require Import StatMechModel SymmetryModel TensorModel TensorProps AverageProps PolyProps SoecRunModel.
Import ListNotations.
Open Scope R_scope.

(** ** C33 *)
Theorem C33_gate_iff_all_zero eigv : gate eigv = true <-> Forall (fun x => x = 0) eigv.
Proof.
  unfold gate. rewrite negb_true_iff. split.
  - intros H. apply Forall_forall. intros x Hx. destruct (Req_dec x 0) as [E|N]; [exact E|exfalso].
    assert (existsb nonzero eigv = true); [|congruence]. apply existsb_exists. exists x. split; [exact Hx|].
    unfold nonzero. destruct (Req_b x 0) eqn:B; [|reflexivity]. apply Req_b_true in B. contradiction.
  - intros H. destruct (existsb nonzero eigv) eqn:E; [|reflexivity]. apply existsb_exists in E. destruct E as (x & Hx & Nx).
    rewrite Forall_forall in H. specialize (H x Hx). subst x. unfold nonzero in Nx.
    assert (B : Req_b 0 0 = true) by now apply Req_b_true. rewrite B in Nx. discriminate.
Qed.
Definition eigenvalue (C : mat6) (lam : R) : Prop :=
  exists x, nonzero6 x /\ forall p, (p < 6)%nat -> apply6 C x p = lam * x p.
Lemma eigenvalue_nonzero C S lam : inverse6 C S -> eigenvalue C lam -> lam <> 0.
Proof.
  intros I (x & (p & Hp & Np) & E) Z. apply Np.
  assert (J : inverse6 S C) by (intros a r Ha Hr; split; apply I; assumption).
  rewrite <- (apply_inverse S C x p J Hp). unfold apply6 at 1. rewrite !E by lia. rewrite Z. ring.
Qed.
(** The calculator has already inverted the matrix when it reaches the gate,
    so the gate never refuses anything. *)
Theorem C33_gate_dead C S eigv : inverse6 C S -> eigv <> [] -> (forall lam, In lam eigv -> eigenvalue C lam) ->
  forall s density, snd (run s density eigv) = true /\ ~ In NotPositiveDefinite (fst (run s density eigv)).
Proof.
  intros I N H s density.
  assert (G : gate eigv = false).
  { destruct (gate eigv) eqn:G; [|reflexivity]. apply C33_gate_iff_all_zero in G.
    destruct eigv as [|l r]; [contradiction|]. inversion G; subst.
    exfalso. apply (eigenvalue_nonzero C S 0 I); [apply H; now left|reflexivity]. }
  unfold run. rewrite G. split; [reflexivity|]. cbn [fst]. unfold initial_report. rewrite !in_app_iff.
  assert (P : forall d, ~ In NotPositiveDefinite (plots s d)).
  { intros d. unfold plots. destruct (polar s && plotting s && matplotlib s)%bool.
    - intros K. apply in_map_iff in K. destruct K as (? & K & _). discriminate.
    - destruct (plotting s && negb (matplotlib s))%bool; simpl; intuition discriminate. }
  intros [K|[K|[K|[K|[K|K]]]]].
  - simpl in K. intuition discriminate.
  - simpl in K. intuition discriminate.
  - destruct (Rlt_dec 0 density); simpl in K; intuition discriminate.
  - destruct (polar s); simpl in K; intuition discriminate.
  - simpl in K. intuition discriminate.
  - exact (P _ K).
Qed.
(** The documented claim, false: an unstable crystal is fully analysed. *)
Definition diag6 (f : nat -> R) : mat6 := fun p q => if (p =? q)%nat then f p else 0.
Definition unstable_diag (p : nat) : R := match p with 0%nat => -1 | _ => INR p end.
Theorem C33_unstable_refuted s density : exists C S eigv,
  symmetric6 C /\ inverse6 C S /\ List.length eigv = 6%nat /\ (forall lam, In lam eigv <-> eigenvalue C lam) /\
  ~ positive_definite C /\ In (-1) eigv /\
  snd (run s density eigv) = true /\ In ModuliVariation (fst (run s density eigv)).
Proof.
  exists (diag6 unstable_diag), (diag6 (fun p => / unstable_diag p)), [-1; 1; 2; 3; 4; 5].
  assert (I : inverse6 (diag6 unstable_diag) (diag6 (fun p => / unstable_diag p))).
  { intros p r Hp Hr. split; unfold mul6, diag6, delta.
    - do 6 (destruct p as [|p]; [do 6 (destruct r as [|r]; [cbn; field|]); lia|]). lia.
    - do 6 (destruct p as [|p]; [do 6 (destruct r as [|r]; [cbn; field|]); lia|]). lia. }
  assert (EV : forall lam, In lam [-1; 1; 2; 3; 4; 5] <-> eigenvalue (diag6 unstable_diag) lam).
  { intros lam. split.
    - intros H. assert (X : exists p, (p < 6)%nat /\ unstable_diag p = lam).
      { simpl in H. decompose [or] H; try contradiction; subst;
        [exists 0%nat|exists 1%nat|exists 2%nat|exists 3%nat|exists 4%nat|exists 5%nat]; (split; [lia|cbn; lra]). }
      destruct X as (p & Hp & E). exists (fun q => delta p q). split.
      + exists p. split; [exact Hp|]. unfold delta. rewrite Nat.eqb_refl. lra.
      + intros q Hq. subst lam. unfold apply6, diag6, delta.
        do 6 (destruct p as [|p]; [do 6 (destruct q as [|q]; [cbn; ring|]); lia|]). lia.
    - intros (x & (p & Hp & Np) & E). specialize (E p Hp). unfold apply6, diag6 in E.
      assert (lam = unstable_diag p).
      { apply Rmult_eq_reg_r with (x p); [|exact Np]. rewrite <- E.
        do 6 (destruct p as [|p]; [cbn [Nat.eqb]; ring|]). lia. }
      subst lam. do 6 (destruct p as [|p]; [cbn; lra|]). lia. }
  split; [|split; [exact I|split; [reflexivity|split; [exact EV|split; [|split; [now left|]]]]]].
  - intros p q Hp Hq. unfold diag6. rewrite (Nat.eqb_sym q p). destruct (Nat.eqb_spec p q); subst; reflexivity.
  - intros P. specialize (P (fun q => delta 0 q)). assert (nonzero6 (fun q => delta 0 q)) as NZ.
    { exists 0%nat. split; [lia|]. cbn. lra. }
    specialize (P NZ). unfold energy, apply6, diag6, delta in P. cbn in P. lra.
  - destruct (C33_gate_dead _ _ [-1; 1; 2; 3; 4; 5] I ltac:(discriminate) (fun l H => proj1 (EV l) H) s density) as (D & N).
    split; [exact D|]. unfold run in *. destruct (gate _); [discriminate D|]. cbn [fst]. unfold initial_report. simpl. auto.
Qed.

(** ** C34 *)
Section Extrema.
Variable brute : (angles -> R) -> nat -> angles * R.
Notation dvar := (directional_variation brute).
(** What one expects of the search on a function: it returns an attained value
    which is no larger than at the first node of the scanned grid. *)
Definition origin (dim : nat) : angles := repeat 0 dim.
Definition sound_search (f : angles -> R) (dim : nat) : Prop :=
  snd (brute f dim) = f (fst (brute f dim)) /\ snd (brute f dim) <= f (origin dim) /\ List.length (fst (brute f dim)) = dim.
(** The search found the least value over the scanned box. *)
Definition in_box (dim : nat) (x : angles) : Prop := List.length x = dim /\ Forall (fun t => 0 <= t <= PI) x.
Definition global_search (f : angles -> R) (dim : nat) : Prop :=
  snd (brute f dim) = f (fst (brute f dim)) /\ List.length (fst (brute f dim)) = dim /\
  forall x, in_box dim x -> snd (brute f dim) <= f x.
Lemma origin_in_box dim : in_box dim (origin dim).
Proof.
  split; [apply repeat_length|]. apply Forall_forall. intros x H. apply repeat_spec in H. subst.
  pose proof PI_RGT_0. lra.
Qed.
Lemma global_sound f dim : global_search f dim -> sound_search f dim.
Proof. intros (A & L & B). split; [exact A|split; [|exact L]]. apply B, origin_in_box. Qed.

Theorem C34_min_le_max f dim : sound_search f dim -> sound_search (fun x => - f x) dim ->
  v_min (dvar f dim) <= f (origin dim) <= v_max (dvar f dim) /\
  (exists x, f x = v_min (dvar f dim)) /\ (exists x, f x = v_max (dvar f dim)).
Proof.
  intros (A & B & _) (A' & B' & _). unfold directional_variation, maximize, minimize. cbn [v_min v_max snd].
  split; [lra|]. split; [exists (fst (brute f dim)); lra|]. exists (fst (brute (fun x => - f x) dim)). lra.
Qed.
Theorem C34_anisotropy f dim : sound_search f dim -> sound_search (fun x => - f x) dim ->
  match v_anisotropy (dvar f dim) with
  | Finite r => 0 < v_min (dvar f dim) /\ 1 <= r /\ r * v_min (dvar f dim) = v_max (dvar f dim)
  | Infinite => v_min (dvar f dim) <= 0
  end.
Proof.
  intros H H'. pose proof (C34_min_le_max f dim H H') as ((L1 & L2) & _).
  unfold directional_variation in *. cbn [v_min v_max v_anisotropy] in *.
  destruct (Rlt_dec 0 (snd (minimize brute f dim))) as [P|P]; [|lra].
  split; [exact P|]. split.
  - apply Rmult_le_reg_r with (snd (minimize brute f dim)); [exact P|]. unfold Rdiv. rewrite Rmult_assoc, Rinv_l by lra. lra.
  - field. lra.
Qed.

Lemma two_angles (x : angles) : List.length x = 2%nat -> exists t p, x = [t; p].
Proof. destruct x as [|t [|p [|]]]; try discriminate. intros _. now exists t, p. Qed.
Lemma three_angles (x : angles) : List.length x = 3%nat -> exists t p c, x = [t; p; c].
Proof. destruct x as [|t [|p [|c [|]]]]; try discriminate. intros _. now exists t, p, c. Qed.

(** Single-direction properties: the axes printed are unit vectors along which
    the printed extrema are attained. *)
Theorem C34_axes_single S : 
  (sound_search (young_f S) 2 -> sound_search (fun x => - young_f S x) 2 ->
   let v := dvar (young_f S) 2 in
   dot (min_axis1 v) (min_axis1 v) = 1 /\ E_of S (min_axis1 v) = v_min v /\
   dot (max_axis1 v) (max_axis1 v) = 1 /\ E_of S (max_axis1 v) = v_max v) /\
  (sound_search (compressibility_f S) 2 -> sound_search (fun x => - compressibility_f S x) 2 ->
   let v := dvar (compressibility_f S) 2 in
   1000 * loop_aakk (S_ijkl S) (min_axis1 v) = v_min v /\ 1000 * loop_aakk (S_ijkl S) (max_axis1 v) = v_max v).
Proof.
  split; intros (A & _ & L) (A' & _ & L'); unfold directional_variation, maximize, minimize; cbn [min_axis1 max_axis1 v_min v_max fst snd];
  destruct (two_angles _ L) as (t & p & E); destruct (two_angles _ L') as (t' & p' & E');
  rewrite A, A', E, E'; cbn [vector_of ang nth young_f compressibility_f].
  - repeat split; try apply (C30_unit t p 0); try apply (C30_unit t' p' 0); unfold young_f, E_of, young_modulus; cbn; lra.
  - unfold compressibility_f, linear_compressibility; cbn [ang nth]. lra.
Qed.
(** With a global search over the scanned quarter of the sphere the extrema are
    those over all directions. *)
Theorem C34_global_single S : global_search (young_f S) 2 -> global_search (fun x => - young_f S x) 2 ->
  forall u, dot u u = 1 -> v_min (dvar (young_f S) 2) <= E_of S u <= v_max (dvar (young_f S) 2).
Proof.
  intros (_ & _ & G) (_ & _ & G') u Hu.
  destruct (C30_half_ranges_suffice u Hu) as (t & p & Bt & Bp & U).
  assert (B : in_box 2 [t; p]) by (split; [reflexivity|]; repeat apply Forall_cons; try apply Forall_nil; assumption).
  specialize (G _ B). specialize (G' _ B). unfold directional_variation, maximize, minimize. cbn [v_min v_max fst snd].
  assert (E : E_of S u = young_f S [t; p]).
  { unfold young_f, young_modulus, E_of. cbn [ang nth]. f_equal.
    destruct U as [(U1 & U2 & U3)|(U1 & U2 & U3)]; unfold loop_aaaa, sum3; rewrite U1, U2, U3; ring. }
  rewrite E. lra.
Qed.
Theorem C34_global_dual S : global_search (shear_f S) 3 -> global_search (fun x => - shear_f S x) 3 ->
  forall u w, dot u u = 1 -> dot w w = 1 -> dot u w = 0 ->
  v_min (dvar (shear_f S) 3) <= 1 / (4 * loop_abab (S_ijkl S) u w) <= v_max (dvar (shear_f S) 3).
Proof.
  intros (_ & _ & G) (_ & _ & G') u w Hu Hw Huw.
  destruct (C30_half_ranges_reach_pairs u w Hu Hw Huw) as (t & p & c & Bt & Bp & Bc & U & W).
  assert (B : in_box 3 [t; p; c]) by (split; [reflexivity|]; repeat apply Forall_cons; try apply Forall_nil; assumption).
  specialize (G _ B). specialize (G' _ B). unfold directional_variation, maximize, minimize. cbn [v_min v_max fst snd].
  assert (E : 1 / (4 * loop_abab (S_ijkl S) u w) = shear_f S [t; p; c]).
  { unfold shear_f, shear_modulus. cbn [ang nth]. f_equal. f_equal. 
    destruct U as [(U1 & U2 & U3)|(U1 & U2 & U3)]; destruct W as [(W1 & W2 & W3)|(W1 & W2 & W3)];
    unfold loop_abab, sum3; rewrite U1, U2, U3, W1, W2, W3; ring. }
  rewrite E. lra.
Qed.
(** Two-direction properties: both printed axes are the same vector, and the
    one printed first is perpendicular to the direction that attains the extremum. *)
Theorem C34_axes_dual_refuted f : sound_search f 3 ->
  let v := dvar f 3 in
  min_axis2 v = Some (min_axis1 v) /\ max_axis2 v = Some (max_axis1 v) /\
  exists t p c, f [t; p; c] = v_min v /\ dot (min_axis1 v) (vector t p) = 0 /\ ~ same (min_axis1 v) (vector t p).
Proof.
  intros (A & _ & L). unfold directional_variation, maximize, minimize. cbn [min_axis1 max_axis1 min_axis2 max_axis2 v_min v_max fst snd Nat.eqb].
  split; [reflexivity|]. split; [reflexivity|].
  destruct (three_angles _ L) as (t & p & c & E). exists t, p, c. rewrite A, E. cbn [vector_of]. split; [reflexivity|].
  destruct (C30_unit t p c) as (U1 & U2 & U3).
  assert (Z : dot (vector_chi t p c) (vector t p) = 0) by (unfold dot in *; lra).
  split; [exact Z|]. intros (S1 & S2 & S3). unfold dot in *. rewrite <- S1, <- S2, <- S3 in Z. lra.
Qed.
End Extrema.
(** A search meeting the hypotheses, on an isotropic crystal. *)
Definition search_origin (f : angles -> R) (dim : nat) : angles * R := (origin dim, f (origin dim)).
Example C34_instance : global_search search_origin (young_f (isotropic_S 3 1)) 2 /\
  global_search search_origin (fun x => - young_f (isotropic_S 3 1) x) 2 /\
  sound_search search_origin (shear_f (isotropic_S 3 1)) 3 /\
  v_anisotropy (directional_variation search_origin (young_f (isotropic_S 3 1)) 2) = Finite 1.
Proof.
  assert (Y : forall x, young_f (isotropic_S 3 1) x = young_textbook 3 1).
  { intros x. unfold young_f.
    apply (C29_isotropic 3 1 (isotropic_C 3 1) (isotropic_S 3 1) (ang x 0) (ang x 1) 0); try lra; try reflexivity. apply C29_instance. }
  assert (V : young_textbook 3 1 = 27 / 10) by (unfold young_textbook; lra).
  split; [|split; [|split]].
  - split; [reflexivity|]. split; [reflexivity|]. intros x _. cbn [search_origin snd fst]. rewrite !Y. lra.
  - split; [reflexivity|]. split; [reflexivity|]. intros x _. cbn [search_origin snd fst]. rewrite !Y. lra.
  - split; [reflexivity|]. split; [apply Rle_refl|reflexivity].
  - unfold directional_variation, maximize, minimize. cbn [search_origin v_anisotropy fst snd]. rewrite !Y, V.
    destruct (Rlt_dec 0 (27 / 10)); [f_equal; lra|lra].
Qed.

(** ** C67: report sections *)
Theorem C67_wave_sections s density eigv : snd (run s density eigv) = true ->
  let ev := fst (run s density eigv) in
  (In VelocityVariation ev <-> 0 < density) /\
  (forall w, In (PolarProperties w) ev <-> polar s = true /\ (w = true <-> 0 < density)) /\
  (In (Figure (basename s ++ "_waves.png")) ev <-> 0 < density /\ polar s = true /\ plotting s = true /\ matplotlib s = true).
Proof.
  intros D. unfold run in *. destruct (gate eigv); [discriminate|]. cbn [fst]. clear D.
  unfold initial_report, plots.
  assert (NE : forall a, (basename s ++ "_" ++ a ++ ".png")%string = (basename s ++ "_waves.png")%string -> a = "waves"%string).
  { intros a. induction (basename s) as [|ch b IH]; simpl; intros E.
    - injection E as E. change ("waves.png"%string) with ("waves" ++ ".png")%string in E.
      clear -E. revert E. 
      assert (LEN : forall x y, String.length (x ++ y) = (String.length x + String.length y)%nat)
        by (induction x; simpl; intros; [reflexivity|now rewrite IHx]).
      intros E. pose proof (f_equal String.length E) as L. rewrite !LEN in L. simpl in L.
      do 5 (destruct a as [|? a]; [simpl in L; lia|]). destruct a; [|simpl in L; lia]. simpl in E. congruence.
    - injection E as E. now apply IH. }
  destruct (Rlt_dec 0 density) as [P|P]; destruct (polar s) eqn:Hp; destruct (plotting s) eqn:Hl; destruct (matplotlib s) eqn:Hm;
  cbn [andb negb app List.map In]; (split; [|split; [intros w; destruct w|]]); 
  split; intros H; repeat match goal with
    | H : _ \/ _ |- _ => destruct H
    | H : _ /\ _ |- _ => destruct H
    | H : False |- _ => contradiction
    | H : ?x = ?y |- _ => discriminate H
    end; try lra; try tauto; try (intuition congruence).
  all: try (exfalso; match goal with H : Figure _ = Figure _ |- _ => injection H as H; apply (NE "E"%string) in H || apply (NE "LC"%string) in H || apply (NE "G"%string) in H || apply (NE "Nu"%string) in H; discriminate end).
Qed.
(** The average velocities are printed even when there is no density. *)
Theorem C67_average_velocities_always_printed_refuted s density eigv :
  ~ 0 < density -> In (AverageVelocities false) (fst (run s density eigv)).
Proof.
  intros N. unfold run, initial_report. destruct (Rlt_dec 0 density); [contradiction|]. destruct (gate eigv); simpl; auto.
Qed.
Example C67_instance :
  run {| polar := true; plotting := true; matplotlib := true; basename := "calcite" |} 2711 [10; 20; 30; 40; 50; 60] =
  ([AverageProperties; AverageVelocities true; Eigenvalues; ModuliVariation; ShearPoissonVariation; VelocityVariation;
    PolarProperties true; Time; Figure "calcite_E.png"; Figure "calcite_LC.png"; Figure "calcite_G.png";
    Figure "calcite_Nu.png"; Figure "calcite_waves.png"], true).
Proof.
  unfold run. destruct (gate _) eqn:G.
  - apply C33_gate_iff_all_zero in G. inversion G; lra.
  - unfold initial_report, plots. destruct (Rlt_dec 0 2711); [reflexivity|lra].
Qed.

(** ** C68: polar cuts *)
(** The direction a reader takes the angle (in degrees) of a cut to mean. *)
Definition cut_direction (pl : plane) (deg : R) : vec :=
  let a := deg * PI / 180 in
  match pl with
  | XY => vec3 (cos a) (sin a) 0
  | XZ => vec3 (sin a) 0 (cos a)
  | YZ => vec3 0 (sin a) (cos a)
  end.
Lemma cut_vector pl n i : same (vector (fst (cut_angles pl n i)) (snd (cut_angles pl n i))) (cut_direction pl (degrees (linspace_2pi n i))).
Proof.
  assert (A : degrees (linspace_2pi n i) * PI / 180 = linspace_2pi n i) by (unfold degrees; field; apply PI_neq0).
  unfold same, cut_direction. rewrite A.
  destruct pl; cbn [cut_angles fst snd]; unfold vector, vec3; rewrite ?sin_PI2, ?cos_PI2, ?sin_0, ?cos_0; repeat split; ring.
Qed.
Theorem C68_young_rows S pl n i : exists deg v, row_E S pl n i = [deg; v] /\ v = E_of S (cut_direction pl deg).
Proof.
  exists (degrees (linspace_2pi n i)). eexists. split; [reflexivity|].
  destruct (cut_vector pl n i) as (E1 & E2 & E3). unfold young_modulus, E_of, loop_aaaa, sum3. rewrite E1, E2, E3. reflexivity.
Qed.
Theorem C68_compressibility_rows S pl n i : exists deg a b, row_LC S pl n i = [deg; a; b] /\
  0 <= a /\ 0 <= b /\ a * b = 0 /\ a - b = 1000 * loop_aakk (S_ijkl S) (cut_direction pl deg).
Proof.
  exists (degrees (linspace_2pi n i)). do 2 eexists. split; [reflexivity|].
  destruct (cut_vector pl n i) as (E1 & E2 & E3). 
  set (v := linear_compressibility S _ _).
  assert (V : 1000 * loop_aakk (S_ijkl S) (cut_direction pl (degrees (linspace_2pi n i))) = v).
  { unfold v, linear_compressibility, loop_aakk, sum3. rewrite E1, E2, E3. reflexivity. }
  rewrite V. clearbody v. split; [apply Rmax_l|]. split; [apply Rmax_l|].
  destruct (Rle_dec 0 v).
  - rewrite (Rmax_right 0 v), (Rmax_left 0 (- v)) by lra. lra.
  - rewrite (Rmax_left 0 v), (Rmax_right 0 (- v)) by lra. lra.
Qed.
(** Poisson columns: the least value is split by sign, the greatest is not. *)
Theorem C68_poisson_rows powell S pl n i : exists deg a b c, row_Nu powell S pl n i = [deg; a; b; c] /\
  a <= 0 <= b /\ a * b = 0 /\
  a + b = powell (fun z => poisson_ratio S (fst (cut_angles pl n i)) (snd (cut_angles pl n i)) z) /\
  c = - powell (fun z => - poisson_ratio S (fst (cut_angles pl n i)) (snd (cut_angles pl n i)) z).
Proof.
  exists (degrees (linspace_2pi n i)). do 3 eexists. split; [reflexivity|].
  unfold poisson_2d. cbn [fst snd]. set (r := powell _). clearbody r.
  split; [split; [apply Rmin_l|apply Rmax_l]|]. split; [|split; [|reflexivity]]; destruct (Rle_dec 0 r).
  - rewrite Rmin_left, Rmax_right by lra. lra.
  - rewrite Rmin_right, Rmax_left by lra. lra.
  - rewrite Rmin_left, Rmax_right by lra. lra.
  - rewrite Rmin_right, Rmax_left by lra. lra.
Qed.
(** A shear row brackets the shear modulus at the starting azimuth of the local
    search, when the search never worsens its starting point. *)
Theorem C68_shear_rows powell S pl n i :
  (forall f, powell f <= f (PI / 2)) ->
  exists deg a b, row_G powell S pl n i = [deg; a; b] /\
   a <= shear_modulus S (fst (cut_angles pl n i)) (snd (cut_angles pl n i)) (PI / 2) <= b.
Proof.
  intros H. exists (degrees (linspace_2pi n i)). do 2 eexists. split; [reflexivity|]. cbn [fst snd shear_2d].
  pose proof (H (fun z => shear_modulus S (fst (cut_angles pl n i)) (snd (cut_angles pl n i)) z)).
  pose proof (H (fun z => - shear_modulus S (fst (cut_angles pl n i)) (snd (cut_angles pl n i)) z)). cbv beta in *. lra.
Qed.
(** 360 rows from 0 to 360 degrees, both included: the step is 360/359 degrees
    and the last row repeats the direction of the first. *)
Theorem C68_sampling : forall row i, (i < 360)%nat ->
  nth i (table row) [] = row i /\ List.length (table row) = 360%nat /\ degrees (linspace_2pi nrad i) = 360 / 359 * INR i.
Proof.
  intros row i Hi. unfold table, nrad. split; [|split].
  - rewrite nth_indep with (d' := row 0%nat) by (rewrite map_length, seq_length; exact Hi).
    rewrite map_nth, seq_nth by exact Hi. reflexivity.
  - now rewrite map_length, seq_length.
  - unfold degrees, linspace_2pi. replace (INR (360 - 1)) with 359 by (rewrite INR_IZR_INZ; reflexivity). field. apply PI_neq0.
Qed.
Theorem C68_closed_curve pl S : 
  same (cut_direction pl (degrees (linspace_2pi nrad 359))) (cut_direction pl (degrees (linspace_2pi nrad 0))) /\
  nth 1 (row_E S pl nrad 359) 0 = nth 1 (row_E S pl nrad 0) 0.
Proof.
  assert (X : same (cut_direction pl (degrees (linspace_2pi nrad 359))) (cut_direction pl (degrees (linspace_2pi nrad 0)))).
  { assert (A : degrees (linspace_2pi nrad 359) * PI / 180 = 2 * PI).
    { rewrite (proj2 (proj2 (C68_sampling (fun _ => []) 359%nat ltac:(lia)))). replace (INR 359) with 359 by (rewrite INR_IZR_INZ; reflexivity). field. }
    assert (B : degrees (linspace_2pi nrad 0) * PI / 180 = 0).
    { rewrite (proj2 (proj2 (C68_sampling (fun _ => []) 0%nat ltac:(lia)))). cbn [INR]. field. }
    unfold cut_direction. rewrite A, B. unfold same, vec3.
    destruct pl; rewrite ?sin_2PI, ?cos_2PI, ?sin_0, ?cos_0; repeat split; reflexivity. }
  split; [exact X|].
  destruct (C68_young_rows S pl nrad 359) as (d & v & E & V). destruct (C68_young_rows S pl nrad 0) as (d' & v' & E' & V').
  assert (D : d = degrees (linspace_2pi nrad 359)) by (unfold row_E in E; now inversion E).
  assert (D' : d' = degrees (linspace_2pi nrad 0)) by (unfold row_E in E'; now inversion E').
  rewrite E, E'. cbn [nth]. rewrite V, V'. subst d d'. destruct X as (X1 & X2 & X3).
  unfold E_of, loop_aaaa, sum3. rewrite X1, X2, X3. reflexivity.
Qed.
Example C68_instance : cut_direction XZ 90 0%nat = 1.
Proof. unfold cut_direction, vec3. replace (90 * PI / 180) with (PI / 2) by field. apply sin_PI2. Qed.

Print Assumptions C33_gate_iff_all_zero.
Print Assumptions C33_gate_dead.
Print Assumptions C33_unstable_refuted.
Print Assumptions C34_min_le_max.
Print Assumptions C34_anisotropy.
Print Assumptions C34_axes_single.
Print Assumptions C34_global_single.
Print Assumptions C34_global_dual.
Print Assumptions C34_axes_dual_refuted.
Print Assumptions C67_wave_sections.
Print Assumptions C67_average_velocities_always_printed_refuted.
Print Assumptions C68_young_rows.
Print Assumptions C68_compressibility_rows.
Print Assumptions C68_poisson_rows.
Print Assumptions C68_shear_rows.
Print Assumptions C68_sampling.
Print Assumptions C68_closed_curve.
