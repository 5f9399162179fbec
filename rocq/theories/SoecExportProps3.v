(** C99: `quantas soec FILE --polar`, then `quantas export soec` on its result. *)
From Coq Require Import Reals String Ascii List Bool Arith ZArith Lia Lra FunctionalExtensionality.
From Verif Require SoecIOModel SoecIOProps CliModel CliProps CitationsModel EosFitModel RunLogProps.
From Verif Require Import Py DecimalModel DecimalProofs FormatModel FormatProofs YamlSpec TableModel TableProofs TableProps StoreModel SymmetryModel SymmetryProofs SymmetryProps TensorModel TensorProps AverageProps SoecRunModel SoecRunProps SoecReportProps
  SoecTableModel SoecTableProofs SoecTableProps SoecCommandModel SoecCommandProps.
From Verif Require Import ExportCommandProps ExportCommandProps2 ExportScreenProps SoecExportModel SoecExportProps SoecExportProps2.
Import ListNotations.
Open Scope string_scope.
Open Scope list_scope.
Open Scope nat_scope.

(** * The values of a direction *)
(** Degrees of the i-th line. *)
Definition angle_of (i : nat) : R := (360 * INR i / 359)%R.
(** The directions perpendicular to the one of the line. *)
Definition across (pl : plane) (i : nat) (z : R) : vec :=
  let b := (angle_of i * PI / 180)%R in
  match pl with
  | XY => vec3 (- sin b * sin z) (cos b * sin z) (- cos z)
  | XZ => vec3 (cos b * cos z) (sin z) (- sin b * cos z)
  | YZ => vec3 (- sin z) (cos b * cos z) (- sin b * cos z)
  end.
(** The values in the columns of a plane; [search g] is what the optimizer returns as
    the least value of g, [wave] the three velocities along a direction. *)
Definition row_of (search : (R -> R) -> R) (wave : plane -> nat -> list R) (S : mat6) (sel : string) (pl : plane) (i : nat) : list R :=
  let u := cut_direction pl (angle_of i) in
  if String.eqb sel "E" then [E_of S u]
  else if String.eqb sel "LC" then [Rmax 0 (elongation S u); Rmax 0 (- elongation S u)]
  else if String.eqb sel "G" then [search (fun z => shear_of S u (across pl i z)); (- search (fun z => - shear_of S u (across pl i z)))%R]
  else if String.eqb sel "Nu" then
    let least := search (fun z => poisson_of S u (across pl i z)) in
    [Rmin 0 least; Rmax 0 least; (- search (fun z => - poisson_of S u (across pl i z)))%R]
  else wave pl i.
(** The names offered. *)
Definition choices (rho : R) : list string := ["E"; "LC"; "G"; "Nu"] ++ (if Rlt_dec 0 rho then ["waves"] else []).

(** All perpendicular directions are met, and no others. *)
Lemma turns x y : (x * x + y * y = 1)%R -> exists z, cos z = x /\ sin z = y.
Proof.
  intros H. destruct (Rle_lt_dec 0 y) as [P|P].
  - destruct (circle_half x y H P) as (t & _ & A & B). eauto.
  - destruct (circle_half x (- y)) as (t & _ & A & B); [nra|lra|]. exists (- t)%R. rewrite cos_neg, sin_neg. split; lra.
Qed.
Theorem C99_across pl i w : pair (cut_direction pl (angle_of i)) w <-> exists z, same w (across pl i z).
Proof.
  unfold pair, unit, cut_direction, across, same, dot, sum3, vec3. set (b := (angle_of i * PI / 180)%R). pose proof (sin2_cos2 b) as B. unfold Rsqr in B. split.
  - intros (_ & H1 & H2). destruct pl.
    + destruct (turns (- w 2%nat)%R (- sin b * w 0%nat + cos b * w 1%nat)%R) as (z & Z1 & Z2).
      * assert (H3 : (cos b * w 0%nat + sin b * w 1%nat = 0)%R) by lra. assert (H4 : ((- sin b * w 0%nat + cos b * w 1%nat) * (- sin b * w 0%nat + cos b * w 1%nat) + (cos b * w 0%nat + sin b * w 1%nat) * (cos b * w 0%nat + sin b * w 1%nat) = (sin b * sin b + cos b * cos b) * (w 0%nat * w 0%nat + w 1%nat * w 1%nat))%R) by ring.
        rewrite H3, B in H4. lra.
      * exists z. rewrite Z1, Z2. assert (H3 : (cos b * w 0%nat + sin b * w 1%nat = 0)%R) by lra. repeat split; [| |lra].
        -- transitivity ((sin b * sin b + cos b * cos b) * w 0%nat - cos b * (cos b * w 0%nat + sin b * w 1%nat))%R; [rewrite H3, B; ring|ring].
        -- transitivity ((sin b * sin b + cos b * cos b) * w 1%nat - sin b * (cos b * w 0%nat + sin b * w 1%nat))%R; [rewrite H3, B; ring|ring].
    + destruct (turns (cos b * w 0%nat - sin b * w 2%nat)%R (w 1%nat)) as (z & Z1 & Z2).
      * assert (H3 : (sin b * w 0%nat + cos b * w 2%nat = 0)%R) by lra. assert (H4 : ((cos b * w 0%nat - sin b * w 2%nat) * (cos b * w 0%nat - sin b * w 2%nat) + (sin b * w 0%nat + cos b * w 2%nat) * (sin b * w 0%nat + cos b * w 2%nat) = (sin b * sin b + cos b * cos b) * (w 0%nat * w 0%nat + w 2%nat * w 2%nat))%R) by ring.
        rewrite H3, B in H4. lra.
      * exists z. rewrite Z1, Z2. assert (H3 : (sin b * w 0%nat + cos b * w 2%nat = 0)%R) by lra. repeat split.
        -- transitivity ((sin b * sin b + cos b * cos b) * w 0%nat - sin b * (sin b * w 0%nat + cos b * w 2%nat))%R; [rewrite H3, B; ring|ring].
        -- transitivity ((sin b * sin b + cos b * cos b) * w 2%nat - cos b * (sin b * w 0%nat + cos b * w 2%nat))%R; [rewrite H3, B; ring|ring].
    + destruct (turns (cos b * w 1%nat - sin b * w 2%nat)%R (- w 0%nat)%R) as (z & Z1 & Z2).
      * assert (H3 : (sin b * w 1%nat + cos b * w 2%nat = 0)%R) by lra. assert (H4 : ((cos b * w 1%nat - sin b * w 2%nat) * (cos b * w 1%nat - sin b * w 2%nat) + (sin b * w 1%nat + cos b * w 2%nat) * (sin b * w 1%nat + cos b * w 2%nat) = (sin b * sin b + cos b * cos b) * (w 1%nat * w 1%nat + w 2%nat * w 2%nat))%R) by ring.
        rewrite H3, B in H4. lra.
      * exists z. rewrite Z1, Z2. assert (H3 : (sin b * w 1%nat + cos b * w 2%nat = 0)%R) by lra. repeat split; [lra| |].
        -- transitivity ((sin b * sin b + cos b * cos b) * w 1%nat - sin b * (sin b * w 1%nat + cos b * w 2%nat))%R; [rewrite H3, B; ring|ring].
        -- transitivity ((sin b * sin b + cos b * cos b) * w 2%nat - cos b * (sin b * w 1%nat + cos b * w 2%nat))%R; [rewrite H3, B; ring|ring].
  - intros (z & H). pose proof (sin2_cos2 z) as Z. unfold Rsqr in Z. destruct pl; destruct H as (-> & -> & ->); repeat split; try ring.
    + transitivity (sin b * sin b + cos b * cos b)%R; [ring|exact B].
    + transitivity ((sin b * sin b + cos b * cos b) * (sin z * sin z) + cos z * cos z)%R; [ring|rewrite B; lra].
    + transitivity (sin b * sin b + cos b * cos b)%R; [ring|exact B].
    + transitivity ((sin b * sin b + cos b * cos b) * (cos z * cos z) + sin z * sin z)%R; [ring|rewrite B; lra].
    + transitivity (sin b * sin b + cos b * cos b)%R; [ring|exact B].
    + transitivity ((sin b * sin b + cos b * cos b) * (cos z * cos z) + sin z * sin z)%R; [ring|rewrite B; lra].
Qed.
(** The optimizer finds the least value. *)
Definition finds (search : (R -> R) -> R) (g : R -> R) : Prop := (exists z, search g = g z) /\ forall z, (search g <= g z)%R.
Lemma same_shear S u w w' : same w w' -> shear_of S u w = shear_of S u w' /\ poisson_of S u w = poisson_of S u w'.
Proof. intros (E1 & E2 & E3). unfold shear_of, poisson_of, loop_abab, loop_aabb, sum3. rewrite E1, E2, E3. split; reflexivity. Qed.
(** Then the columns of G are the least and the greatest shear modulus of the planes
    through the direction of the line; the last of Nu is the greatest Poisson's ratio,
    the first two are the least one, in the first column if it is negative. *)
Theorem C99_extremes search wave Sm pl i : let u := cut_direction pl (angle_of i) in
  (finds search (fun z => shear_of Sm u (across pl i z)) -> finds search (fun z => (- shear_of Sm u (across pl i z))%R) ->
   exists lo hi, row_of search wave Sm "G" pl i = [lo; hi] /\ (exists w, pair u w /\ shear_of Sm u w = lo) /\ (exists w, pair u w /\ shear_of Sm u w = hi) /\ forall w, pair u w -> (lo <= shear_of Sm u w <= hi)%R) /\
  (finds search (fun z => poisson_of Sm u (across pl i z)) -> finds search (fun z => (- poisson_of Sm u (across pl i z))%R) ->
   exists lo hi, row_of search wave Sm "Nu" pl i = (if Rlt_dec lo 0 then [lo; 0; hi] else [0; lo; hi])%R /\
     (exists w, pair u w /\ poisson_of Sm u w = lo) /\ (exists w, pair u w /\ poisson_of Sm u w = hi) /\ forall w, pair u w -> (lo <= poisson_of Sm u w <= hi)%R).
Proof.
  intros u. assert (X : forall g : vec -> R, (forall w w', same w w' -> g w = g w') -> finds search (fun z => g (across pl i z)) -> finds search (fun z => (- g (across pl i z))%R) ->
    (exists w, pair u w /\ g w = search (fun z => g (across pl i z))) /\ (exists w, pair u w /\ g w = (- search (fun z => - g (across pl i z)))%R) /\
    forall w, pair u w -> (search (fun z => g (across pl i z)) <= g w <= - search (fun z => - g (across pl i z)))%R).
  { intros g G ((z & Z) & L) ((z' & Z') & L'). assert (P : forall z, pair u (across pl i z)) by (intros z0; apply C99_across; exists z0; repeat split). split; [|split].
    - exists (across pl i z). split; [apply P|now rewrite Z].
    - exists (across pl i z'). split; [apply P|]. rewrite Z'. ring.
    - intros w W. apply C99_across in W as (z0 & W). rewrite (G _ _ W). specialize (L z0). specialize (L' z0). cbv beta in *. lra. }
  split; intros F1 F2.
  - destruct (X (shear_of Sm u) (fun w w' E => proj1 (same_shear Sm u w w' E)) F1 F2) as (A & B & C). eexists _, _. split; [reflexivity|]. auto.
  - destruct (X (poisson_of Sm u) (fun w w' E => proj2 (same_shear Sm u w w' E)) F1 F2) as (A & B & C). exists (search (fun z => poisson_of Sm u (across pl i z))), (- search (fun z => (- poisson_of Sm u (across pl i z))))%R.
    split; [|auto]. unfold row_of. cbn [String.eqb Ascii.eqb Bool.eqb]. fold u. set (lo := search (fun z => poisson_of Sm u (across pl i z))). destruct (Rlt_dec lo 0).
    + rewrite Rmin_right, Rmax_left by lra. reflexivity.
    + rewrite Rmin_left, Rmax_right by lra. reflexivity.
Qed.

(** * What is stored *)
Lemma cut_across pl i z : same (vector_chi (fst (cut_angles pl 360 i)) (snd (cut_angles pl 360 i)) z) (across pl i z).
Proof.
  assert (A : (angle_of i * PI / 180 = linspace_2pi 360 i)%R).
  { unfold angle_of. rewrite <- angle. unfold degrees. field. apply PI_neq0. }
  unfold same, across. rewrite A. destruct pl; cbn [cut_angles fst snd]; unfold vector_chi, vec3; rewrite ?sin_PI2, ?cos_PI2, ?sin_0, ?cos_0; repeat split; ring.
Qed.
Lemma loops_same A B u u' w w' : (forall i j k l, i < 3 -> j < 3 -> k < 3 -> l < 3 -> S_ijkl A i j k l = S_ijkl B i j k l) -> same u u' -> same w w' ->
  loop_aaaa (S_ijkl A) u = loop_aaaa (S_ijkl B) u' /\ loop_aakk (S_ijkl A) u = loop_aakk (S_ijkl B) u' /\
  loop_abab (S_ijkl A) u w = loop_abab (S_ijkl B) u' w' /\ loop_aabb (S_ijkl A) u w = loop_aabb (S_ijkl B) u' w'.
Proof.
  intros T (V1 & V2 & V3) (C1 & C2 & C3). unfold loop_aaaa, loop_aakk, loop_abab, loop_aabb, sum3. rewrite V1, V2, V3, C1, C2, C3. repeat split; rewrite !T by lia; reflexivity.
Qed.
Lemma calculated_row search wave Se' Se sel pl i : (forall p q, p < 6 -> q < 6 -> Se' p q = Se p q) -> In sel polar_names ->
  calculated search wave sel Se' pl i = row_of search wave Se sel pl i.
Proof.
  intros EN N. pose proof (S_ijkl_entries _ _ EN) as T. pose proof (cut_vector pl 360 i) as V. rewrite angle in V. fold (angle_of i) in V.
  pose proof (fun z => loops_same Se' Se _ _ _ _ T V (cut_across pl i z)) as LS.
  assert (L1 : loop_aaaa (S_ijkl Se') (vector (fst (cut_angles pl 360 i)) (snd (cut_angles pl 360 i))) = loop_aaaa (S_ijkl Se) (cut_direction pl (angle_of i))) by apply (LS 0%R).
  assert (L2 : (1000 * loop_aakk (S_ijkl Se') (vector (fst (cut_angles pl 360 i)) (snd (cut_angles pl 360 i))) = elongation Se (cut_direction pl (angle_of i)))%R).
  { rewrite elongation_is. destruct (LS 0%R) as (_ & -> & _). reflexivity. }
  assert (L3 : forall z, shear_modulus Se' (fst (cut_angles pl 360 i)) (snd (cut_angles pl 360 i)) z = shear_of Se (cut_direction pl (angle_of i)) (across pl i z)).
  { intros z. unfold shear_modulus, shear_of. destruct (LS z) as (_ & _ & -> & _). reflexivity. }
  assert (L4 : forall z, poisson_ratio Se' (fst (cut_angles pl 360 i)) (snd (cut_angles pl 360 i)) z = poisson_of Se (cut_direction pl (angle_of i)) (across pl i z)).
  { intros z. unfold poisson_ratio, poisson_of. rewrite L1. destruct (LS z) as (_ & _ & _ & ->). reflexivity. }
  cbn [polar_names In] in N. decompose [or False] N; subst sel; unfold calculated, row_of; cbn [String.eqb Ascii.eqb Bool.eqb]; try reflexivity.
  - unfold row_E. cbn [tl]. unfold young_modulus, E_of. now rewrite L1.
  - unfold row_LC. cbn [tl]. unfold linear_compressibility. now rewrite L2.
  - unfold row_G, shear_2d. cbn [tl fst snd]. f_equal; [|f_equal; f_equal]; f_equal; apply functional_extensionality; intros z; now rewrite L3.
  - unfold row_Nu, poisson_2d. cbn [tl fst snd]. replace (fun z => poisson_ratio Se' (fst (cut_angles pl 360 i)) (snd (cut_angles pl 360 i)) z) with (fun z => poisson_of Se (cut_direction pl (angle_of i)) (across pl i z))
      by (apply functional_extensionality; intros z; now rewrite L4).
    do 3 f_equal. f_equal. f_equal. apply functional_extensionality. intros z. now rewrite L4.
Qed.

Section Pipeline.
Variable inverse : mat6 -> option mat6.
Variable eigenvalues : mat6 -> list R.
Variable brute : (SoecRunModel.angles -> R) -> nat -> SoecRunModel.angles * R.
Variable powell : (R -> R) -> R.
Variable velocities : mat6 -> R -> SoecRunModel.angles -> list R.
Variables (time_line : string) (float_text : R -> string) (encode : h5 -> string).
Variable nan_case : SoecIOModel.data -> CliModel.method (string + CliModel.job).
Variables (punit : string) (pol plt mpl : bool) (f : string) (o : option string) (silent d : bool) (a : CliModel.result bool) (w : CliModel.world).
Notation command := (CliModel.soec_command (print_settings punit)).
Notation out := (CliModel.outpath command f o).
Notation lf := (CliModel.logpath out).
Notation options := {| polar := pol; plotting := plt; matplotlib := mpl; basename := CliModel.root out |}.
Notation run_command := (soec_main inverse eigenvalues brute powell velocities time_line float_text encode nan_case punit pol plt mpl f o silent d a w).
Notation stored := (soec_stored eigenvalues powell velocities punit options).

Lemma stored_names sys rho c Sm : map fst (datasets (stored sys rho c Sm)) =
  ["stiffness"; "compliance"; "averages"; "eigenvals"] ++ List.concat (map (fun pl => map (fun sel => array_name sel pl) (if has_waves pol rho then stored_five else stored_four)) [XY; XZ; YZ]).
Proof. unfold soec_stored. cbn [datasets map polar List.concat]. rewrite !plane_list. destruct (has_waves pol rho); reflexivity. Qed.
Lemma stored_has sys rho c Sm sel pl : In sel (if has_waves pol rho then stored_five else stored_four) ->
  In (array_name sel pl, run_dataset powell (polar_wave velocities rho c) punit pol rho (effective sys Sm) sel pl) (datasets (stored sys rho c Sm)).
Proof.
  intros I. unfold soec_stored. cbn [datasets polar]. apply in_or_app. right. apply in_concat. eexists. split; [apply in_map; instantiate (1 := pl); destruct pl; cbn; tauto|]. rewrite plane_list. unfold on_plane, array_name.
  apply (in_map (fun n => ("polar_" +++ n +++ "_" +++ plane_name pl, run_dataset powell (polar_wave velocities rho c) punit pol rho (effective sys Sm) n pl))). exact I.
Qed.
Lemma stored_cuts sys rho c Sm sel key dd : In sel polar_names -> cut (stored sys rho c Sm) key dd -> within sel key -> exists pl, key = array_name sel pl.
Proof.
  intros N (I & _) W. apply (in_map fst) in I. rewrite stored_names in I. cbn [fst] in I. apply contains_in in W.
  assert (X : In key (["stiffness"; "compliance"; "averages"; "eigenvals"] ++ List.concat (map (fun pl => map (fun sel => array_name sel pl) stored_five) [XY; XZ; YZ]))).
  { destruct (has_waves pol rho); [exact I|]. apply in_app_or in I as [I|I]; [apply in_or_app; now left|]. apply in_or_app; right. cbn [map stored_four stored_five List.concat app In] in I |- *. tauto. }
  clear I. cbn [polar_names In] in N. cbn [app map stored_five List.concat In] in X.
  decompose [or False] N; subst sel; decompose [or False] X; subst key; try discriminate W; first [exists XY; reflexivity|exists XZ; reflexivity|exists YZ; reflexivity].
Qed.
Lemma stored_unique sys rho c Sm : NoDup (map fst (datasets (stored sys rho c Sm))).
Proof.
  rewrite stored_names. destruct (has_waves pol rho); cbn; repeat (constructor; [cbn [In]; intros X; decompose [or False] X; discriminate|]); constructor.
Qed.
Lemma stored_accepted sys rho c Sm : accepted (stored sys rho c Sm) info_text.
Proof. split; [reflexivity|]. rewrite stored_names. now left. Qed.
Lemma stored_waves sys rho c Sm : has_waves pol rho = true -> is_offered (stored sys rho c Sm) "waves".
Proof.
  intros Hw. right. split; [reflexivity|]. exists (array_name "waves" XY). eexists. split; [split; [apply (stored_has sys rho c Sm "waves" XY); rewrite Hw; cbn; tauto|exists "", "waves_xy"; reflexivity]|exists "polar_", "_xy"; reflexivity].
Qed.
Lemma unit_as_written sel : In sel polar_names -> polar_unit punit sel = unit_written punit sel.
Proof. intros N. cbn [polar_names In] in N. decompose [or False] N; subst sel; reflexivity. Qed.

(** * With --polar: every table offered holds the values of the crystal *)
Theorem C99_elastic text name c rho Sm Se : ready inverse eigenvalues punit f o a w text name c rho Sm -> used c Sm Se -> pol = true -> no_newline punit ->
  ((0 < rho)%R -> forall x, List.length (velocities c rho x) = 3) ->
  (forall sel pl i, In sel (choices rho) -> i < 360 -> Forall narrow (row_of powell (polar_wave velocities rho c) Se sel pl i)) ->
  exists v h, run_command = (CliModel.Ok tt, v) /\ CliModel.fs v out = CliModel.File (encode h) /\ (forall q, q <> lf -> q <> out -> CliModel.fs v q = CliModel.fs w q) /\
  forall decode complaint, decode (encode h) = Some h -> exists texts,
    (forall sel, In sel (choices rho) -> is_polar_table (texts sel) sel (unit_written punit sel) (map angle_of (seq 0 360)) (map (side (row_of powell (polar_wave velocities rho c) Se sel)) (seq 0 360))) /\
    (forall sel, is_offered h sel <-> In sel (choices rho)) /\
    forall typed later, session texts (choices rho) out (CliModel.fs v) typed later ->
      exists v' said, export_main decode complaint out typed v = (CliModel.Ok tt, v') /\ CliModel.fs v' = later /\
        conversation texts out (CliModel.fs v) typed said /\ CliModel.screen v' = CliModel.screen v ++ greeting info_text ++ said ++ farewell.
Proof.
  intros H U Q Np Lw Nv. destruct (completes inverse eigenvalues brute powell velocities time_line float_text encode nan_case punit pol plt mpl f o silent d a w _ _ _ _ _ H) as (sys & v & K & E & Sv & _ & Fr).
  exists v, (stored sys rho c Sm). split; [exact E|]. split; [exact Sv|]. split; [exact Fr|]. intros decode complaint De.
  pose proof (effective_used c Sm Se sys (input_symmetric _ _ _ _ _ _ _ _ _ _ _ _ H) (inverted _ _ _ _ _ _ _ _ _ _ _ _ H) K U) as EN.
  assert (CH : forall sel, In sel (choices rho) -> In sel (if has_waves pol rho then stored_five else stored_four) /\ In sel polar_names /\ (In sel ["E"; "LC"; "G"; "Nu"] \/ sel = "waves" /\ (0 < rho)%R)).
  { intros sel I. unfold choices in I. unfold has_waves. rewrite Q. destruct (Rlt_dec 0 rho) as [P|P]; cbn [app In stored_five stored_four polar_names] in I |- *; intuition (subst; auto 10). }
  assert (OF : forall sel, is_offered (stored sys rho c Sm) sel <-> In sel (choices rho)).
  { intros sel. split.
    - intros [I|(-> & key & dd & (I & _) & W)]; [unfold choices; apply in_or_app; now left|]. unfold choices. apply in_or_app; right. destruct (Rlt_dec 0 rho) as [P|P]; [now left|]. exfalso.
      apply (in_map fst) in I. rewrite stored_names in I. unfold has_waves in I. rewrite Q in I. destruct (Rlt_dec 0 rho); [contradiction|]. apply contains_in in W. cbn [app map stored_four List.concat In fst] in I.
      decompose [or False] I; subst key; discriminate W.
    - intros I. destruct (CH sel I) as (_ & _ & [X|(-> & P)]); [now left|]. apply stored_waves. unfold has_waves. rewrite Q. now destruct (Rlt_dec 0 rho). }
  destruct (C99_session decode complaint out v (encode (stored sys rho c Sm)) (stored sys rho c Sm) info_text (choices rho) (unit_written punit) (fun _ => 360) (fun _ => angle_of)
    (row_of powell (polar_wave velocities rho c) Se) Sv De (stored_accepted sys rho c Sm) (stored_unique sys rho c Sm)) as (texts & T & S0).
  - intros sel I. destruct (CH sel I) as (C1 & C2 & C3). split; [now apply OF|]. split; [|split; [|split]].
    + split; [lia|]. split; [|split].
      * intros pl i. destruct C3 as [C3|(-> & P)]; [cbn [In] in C3; decompose [or False] C3; subst sel; reflexivity|]. cbn. now apply Lw.
      * intros pl. pose proof (stored_has sys rho c Sm sel pl C1) as X. unfold run_dataset in X. rewrite Q in X at 1. rewrite (calculated_table powell (polar_wave velocities rho c) rho (effective sys Sm) sel pl C3), (unit_as_written sel C2) in X.
        replace (map (fun i => angle_of i :: row_of powell (polar_wave velocities rho c) Se sel pl i) (seq 0 360)) with (map (fun i => (360 * INR i / 359)%R :: calculated powell (polar_wave velocities rho c) sel (effective sys Sm) pl i) (seq 0 360)); [exact X|].
        apply map_ext. intros i. now rewrite (calculated_row powell (polar_wave velocities rho c) (effective sys Sm) Se sel pl i EN C2).
      * intros key dd. now apply stored_cuts.
    + cbn [polar_names In] in C2. decompose [or False] C2; subst sel; try exact Np; reflexivity.
    + intros i Hi. now apply degree_narrow.
    + intros pl i Hi. now apply Nv.
  - exists texts. split; [exact T|]. split; [exact OF|]. exact S0.
Qed.

(** * Without --polar every table, the velocities too, is offered and shows one line of
      zeros, whatever the crystal *)
Theorem C99_no_polar_refuted text name c rho Sm : ready inverse eigenvalues punit f o a w text name c rho Sm -> pol = false -> no_newline punit ->
  exists v h, run_command = (CliModel.Ok tt, v) /\ CliModel.fs v out = CliModel.File (encode h) /\
  forall decode complaint, decode (encode h) = Some h -> exists texts,
    (forall sel, In sel polar_names -> is_polar_table (texts sel) sel (unit_written punit sel) [0%R] [repeat 0%R (3 * per_plane sel)]) /\
    forall typed later, session texts polar_names out (CliModel.fs v) typed later ->
      exists v', export_main decode complaint out typed v = (CliModel.Ok tt, v') /\ CliModel.fs v' = later.
Proof.
  intros H Q Np. destruct (completes inverse eigenvalues brute powell velocities time_line float_text encode nan_case punit pol plt mpl f o silent d a w _ _ _ _ _ H) as (sys & v & K & E & Sv & _ & Fr).
  exists v, (stored sys rho c Sm). split; [exact E|]. split; [exact Sv|]. intros decode complaint De. assert (HW : has_waves pol rho = true) by (rewrite Q; reflexivity).
  destruct (C99_session decode complaint out v (encode (stored sys rho c Sm)) (stored sys rho c Sm) info_text polar_names (unit_written punit) (fun _ => 1) (fun _ _ => 0%R)
    (fun sel _ _ => repeat 0%R (per_plane sel)) Sv De (stored_accepted sys rho c Sm) (stored_unique sys rho c Sm)) as (texts & T & S0).
  - intros sel N. split; [cbn [polar_names In] in N; decompose [or False] N; subst sel; try (left; cbn; tauto); now apply stored_waves|]. split; [|split; [|split]].
    + split; [lia|]. split; [intros; apply repeat_length|]. split; [|intros key dd; now apply stored_cuts].
      intros pl. assert (I : In sel (if has_waves pol rho then stored_five else stored_four)) by (rewrite HW; cbn [polar_names In] in N; decompose [or False] N; subst sel; cbn; tauto).
      pose proof (stored_has sys rho c Sm sel pl I) as X. unfold run_dataset in X. rewrite Q in X at 1. rewrite (unit_as_written sel N) in X. cbn [polar_names In] in N. decompose [or False] N; subst sel; exact X.
    + cbn [polar_names In] in N. decompose [or False] N; subst sel; try exact Np; reflexivity.
    + intros i _. unfold narrow_degree. lra.
    + intros pl i _. apply Forall_forall. intros x X. apply repeat_spec in X. subst x. unfold narrow. lra.
  - exists texts. split.
    + intros sel N. specialize (T sel N). cbn [map seq] in T. unfold side in T. replace (repeat 0%R (3 * per_plane sel)) with (repeat 0%R (per_plane sel) ++ repeat 0%R (per_plane sel) ++ repeat 0%R (per_plane sel)); [exact T|].
      rewrite <- !repeat_app. f_equal. lia.
    + intros typed later X. destruct (S0 typed later X) as (v' & said & A & B & _). eauto.
Qed.
End Pipeline.

(** * A concrete case *)
(** The glass of C94: bulk modulus 5, shear modulus 3. *)
Lemma glass_rows sel pl i : In sel (choices 2500) -> row_of (fun g => g (PI / 2)%R) (polar_wave (fun _ _ _ => [2; 2; 4]%R) 2500 glass) (isotropic_S 5 3) sel pl i =
  match find sel [("E", [7.5]); ("LC", [200 / 3; 0]); ("G", [3; 3]); ("Nu", [0; 0.25; 0.25]); ("waves", [2; 2; 4])]%R with Some l => l | None => [] end.
Proof.
  intros I. destruct glass_facts as (Y & Z & Iv & P & E). pose proof (fun t p c => C29_isotropic 5 3 glass (isotropic_S 5 3) t p c ltac:(lra) ltac:(lra) E Iv) as ISO.
  assert (N : In sel polar_names) by (unfold choices in I; destruct (Rlt_dec 0 2500); cbn [app In polar_names] in I |- *; tauto).
  rewrite <- (calculated_row _ _ (isotropic_S 5 3) (isotropic_S 5 3) sel pl i (fun p q _ _ => eq_refl) N). set (t := fst (cut_angles pl 360 i)). set (p := snd (cut_angles pl 360 i)). destruct (ISO t p (PI / 2)%R) as (_ & _ & _ & _ & _ & _ & I1 & I2 & I3 & I4).
  unfold young_textbook, poisson_textbook in *. cbn [polar_names In] in N. decompose [or False] N; subst sel; unfold calculated, row_E, row_LC, row_G, row_Nu, shear_2d, poisson_2d, polar_wave; cbn [String.eqb Ascii.eqb Bool.eqb tl fst snd find]; fold t p; try reflexivity.
  - rewrite I1. f_equal. lra.
  - rewrite I2. rewrite Rmax_right, Rmax_left by lra. f_equal. lra.
  - rewrite I3. f_equal. f_equal. lra.
  - rewrite I4. rewrite Rmin_left, Rmax_right by lra. f_equal. f_equal; [lra|]. f_equal. lra.
Qed.
Example C99_instance : exists v v' t,
  soec_main (only glass (isotropic_S 5 3)) (fun _ => [3; 3; 3; 6; 6; 15]%R) search_origin (fun g => g (PI / 2)%R) (fun _ _ _ => [2; 2; 4]%R)
    "Calculation time: 1.0 s" (fun _ => "2500.0") (fun h => "h5") (fun _ => ([], CliModel.Raises "")) "GPa" true false true "run/glass.dat" None true false (CliModel.Ok false) (disk glass_upper) = (CliModel.Ok tt, v) /\
  (exists h, export_main (fun _ => Some h) (fun _ _ => "") "run/glass_SOEC.hdf5" ["E"; "n"] v = (CliModel.Ok tt, v')) /\
  CliModel.fs v' "run/glass_SOEC_E.dat" = CliModel.File t /\
  shows (nth 10 (lines t) "") [rounded 1 0; rounded 4 7.5; rounded 4 7.5; rounded 4 7.5]%R /\ List.length (lines t) = 371.
Proof.
  destruct glass_described as (D1 & _). pose proof (glass_ready _ D1) as R1. destruct glass_facts as (Y & Z & I & P & E).
  assert (KC : crystal glass Cubic).
  { split; [|intros s' L; destruct s'; cbn in L; lia]. unfold enforced, all_negligible, orthotropic_zeros, negligible, approx, C, glass.
    cbn [fst snd Nat.sub nth]. repeat split; repeat apply Forall_cons; try apply Forall_nil; cbn [fst snd Nat.sub nth]; unfold Rabs; destruct (Rcase_abs _); lra. }
  assert (U : used glass (isotropic_S 5 3) (isotropic_S 5 3)).
  { left. split; [|reflexivity]. right. intros K'. discriminate (one_system glass _ _ Y K' KC). }
  destruct (C99_elastic (only glass (isotropic_S 5 3)) (fun _ => [3; 3; 3; 6; 6; 15]%R) search_origin (fun g => g (PI / 2)%R) (fun _ _ _ => [2; 2; 4]%R)
    "Calculation time: 1.0 s" (fun _ => "2500.0") (fun h => "h5") (fun _ => ([], CliModel.Raises "")) "GPa" true false true "run/glass.dat" None true false (CliModel.Ok false) (disk glass_upper)
    _ _ _ _ _ _ R1 U eq_refl eq_refl) as (v & h & E1 & S1 & Fr & X).
  - intros _ x. reflexivity.
  - intros sel pl i J _. rewrite (glass_rows sel pl i J). unfold choices in J. destruct (Rlt_dec 0 2500); cbn [app In] in J; decompose [or False] J; subst sel; cbn; repeat constructor; unfold narrow; lra.
  - destruct (X (fun _ => Some h) (fun _ _ => "") eq_refl) as (texts & T & _ & S0).
    assert (CE : In "E" (choices 2500)) by now left.
    assert (FO : CliModel.fs v (offered "run/glass_SOEC.hdf5" "E") = CliModel.Absent) by (change (offered "run/glass_SOEC.hdf5" "E") with "run/glass_SOEC_E.dat"; rewrite Fr by discriminate; reflexivity).
    destruct (S0 ["E"; "n"] (CliModel.update (CliModel.fs v) (offered "run/glass_SOEC.hdf5" "E") (CliModel.File (texts "E")))) as (v' & said & E' & Fs & _).
    { apply (stops texts (choices 2500) _ _ ["E"] "E" (offered "run/glass_SOEC.hdf5" "E") "n"); [exact CE| |cbn; tauto]. apply as_offered. exact FO. }
    exists v, v', (texts "E"). split; [exact E1|]. split; [exists h; exact E'|]. split; [rewrite Fs; reflexivity|].
    destruct (T "E" CE) as (title & unitline & top & head & planes & words & bar & body & L & _ & _ & _ & _ & _ & LB & V).
    rewrite map_length, seq_length in LB, V. destruct (V 0 ltac:(lia)) as [V0 _]. rewrite !nth_map_seq in V0 by lia. unfold side in V0. rewrite !(glass_rows "E" _ _ CE) in V0.
    unfold angle_of in V0. change (INR 0) with 0%R in V0. replace (360 * 0 / 359)%R with 0%R in V0 by lra. rewrite L. split; [destruct body as [|b body]; [discriminate LB|]; exact V0|].
    rewrite !app_length, LB. reflexivity.
Qed.

Print Assumptions C99_across.
Print Assumptions C99_extremes.
Print Assumptions C99_elastic.
Print Assumptions C99_no_polar_refuted.
