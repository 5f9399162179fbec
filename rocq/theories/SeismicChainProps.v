(** C108: from the output of an ab initio code, through `quantas inpgen soec` and the
    file it writes, to `quantas seismic` and the tables of `quantas export seismic`. *)
From Coq Require Import Reals String Ascii List Bool Arith ZArith NArith Lia Lra.
From Flocq Require Import Core.
From Verif Require SoecIOModel SoecIOProps SoecInterfaceModel SoecInterfaceProps SoecInpgenModel SoecInpgenProps CliModel CliProofs CitationsModel RunLogProps QhaRunModel SeismicModel SeismicProps SeismicIsoProps
  SeismicTableModel SeismicTableProps.
From Verif Require Import Py DecimalModel FormatModel FormatProofs YamlSpec TableModel TableProofs TableProps SoecTableModel SoecTableProofs SoecTableProps
  SymmetryModel TensorModel TensorProps AverageProps SoecReportProps SoecCommandProps SeismicNodeProofs.
From Verif Require Import ExportCommandProps ExportCommandProps2 ExportScreenProps WaveCompareProofs.
From Verif Require SeismicCommandModel SeismicCommandProps SeismicExportModel SeismicExportProps SeismicExportProps2 ElasticChainProps ElasticRoundProps.
Import ListNotations.
Open Scope string_scope.
Open Scope list_scope.
Open Scope nat_scope.
Import SeismicCommandProps(azimuths_of, ready, proper_sphere).
Import SeismicExportProps2(wave_line).
Import SeismicTableProps(heading_of, each_rounded, decimals, is_seismic_table).
Import ElasticChainProps(alike, stable_by, crystal_output, vasp_output, mirrored, exchanged, kept, kept_density).

Lemma polar_unit a b : dot (polar a b) (polar a b) = 1%R.
Proof.
  unfold dot, polar. pose proof (sin2_cos2 a) as A. pose proof (sin2_cos2 b) as B. unfold Rsqr in A, B.
  transitivity (sin a * sin a * (sin b * sin b + cos b * cos b) + cos a * cos a)%R; [ring|]. rewrite B. lra.
Qed.

Section Chain.
Variable t : CliModel.texts.
Variable round_abs : nat -> R -> N.
Hypothesis round_near : forall k x, (Rabs (IZR (Z.of_N (round_abs k x)) - Rabs x * 10 ^ k) <= 1 / 2)%R.
Variable is_text : string -> bool.
Variable inverse : mat6 -> option mat6.
Variable eigh : SeismicModel.mat3 -> (nat -> R) * SeismicModel.mat3.
Variables pinv inv : SeismicModel.mat3 -> SeismicModel.mat3.
Variables (time_line : string) (float_text : R -> string) (encode : h5 -> string).
Variable nan_case : SoecIOModel.data -> CliModel.method (string + CliModel.job).
Variables (ntheta nphi : Z) (f : string) (o o2 : option string) (a : string) (silent d : bool) (a2 : CliModel.result bool) (w : CliModel.world).
Notation ip := (SoecInpgenModel.input_path f o).
Notation out := (CliModel.outpath (CliModel.seismic_command "") ip o2).
Notation lf := (CliModel.logpath out).
Notation inpgen := (SoecInpgenModel.soec_inpgen t round_abs is_text).
Notation seismic := (SeismicCommandModel.seismic_main inverse eigh pinv inv time_line float_text encode nan_case ntheta nphi "GPa" ip o2 silent d a2).
Notation nt := (Z.to_nat ntheta).
Notation np := (Z.to_nat (azimuths_of ntheta nphi)).
Notation theta i := (PI / 2 * (INR i / (INR nt - 1)))%R.
Notation phi p := (2 * PI * (INR p / (INR np - 1)))%R.
Notation title := (rstrip (SoecInpgenProps.job_of a)).

(** Both commands can write, and the second may replace what it finds. *)
Record room : Prop := {
  data_room : CliModel.fs w ip <> CliModel.Dir;
  log_room : CliModel.fs w lf <> CliModel.Dir;
  out_room : CliModel.fs w out = CliModel.Absent \/ CliModel.fs w out <> CliModel.Dir /\ a2 = CliModel.Ok true;
  description : SoecInpgenProps.proper_title a }.
Lemma paths_apart : lf <> ip /\ out <> ip.
Proof.
  destruct (ElasticChainProps.data_path f o) as (p & E). destruct (CliProofs.out_last (CliModel.seismic_command "") ip o2) as (q & Q); [now exists "_SEISMIC"|].
  split; intros X.
  - unfold CliModel.logpath in X. revert X. generalize (CliModel.root out). intros r X. rewrite E in X. change (".txt"%string) with ("." +++ "txt") in X. rewrite <- CliProofs.append_assoc3 in X.
    apply ElasticChainProps.same_end in X; [discriminate X|reflexivity].
  - rewrite Q, E in X. change (".hdf5"%string) with (".h" +++ "df5") in X. rewrite <- CliProofs.append_assoc3 in X. apply ElasticChainProps.same_end in X; [discriminate X|reflexivity].
Qed.
Lemma carried v x rho Sm : room -> symmetric6 x -> CliModel.fs v ip = CliModel.File (SoecIOModel.write round_abs (SoecInpgenProps.job_of a) x rho) ->
  (forall q, q <> ip -> CliModel.fs v q = CliModel.fs w q) -> kept_density round_abs rho <> 0%R -> inverse (kept round_abs x) = Some Sm ->
  ready inverse ntheta nphi "GPa" ip o2 a2 v (SoecIOModel.write round_abs (SoecInpgenProps.job_of a) x rho) title (kept round_abs x) (kept_density round_abs rho) Sm.
Proof.
  intros [D1 D2 D3 (T1 & T2)] Y F K Nz I. destruct paths_apart as (N1 & N2).
  constructor; [constructor| | |].
  - exact F.
  - now apply ElasticChainProps.written_described.
  - apply ElasticChainProps.kept_sized.
  - now apply ElasticChainProps.kept_symmetric.
  - rewrite K; [exact D2|exact N1].
  - exact N1.
  - exact Nz.
  - exact I.
  - rewrite K; [exact D3|exact N2].
Qed.

(** ** From CRYSTAL *)
(** The three waves of a node against those of the crystal whose moduli and density
    were printed: in order, the products of density and squared velocity differ by
    0.6 MPa at most. *)
Definition waves_near (x : mat6) (rho rho' : R) (n : vec) (v0 v1 v2 : R) : Prop :=
  forall w0 w1 w2 s0 s1 s2, travels x rho n w0 s0 -> travels x rho n w1 s1 -> travels x rho n w2 s2 -> orthonormal3 w0 w1 w2 -> (s0 <= s1 <= s2)%R ->
    (Rabs (rho' * v0 ^ 2 - rho * s0 ^ 2) <= 0.6 /\ Rabs (rho' * v1 ^ 2 - rho * s1 ^ 2) <= 0.6 /\ Rabs (rho' * v2 ^ 2 - rho * s2 ^ 2) <= 0.6)%R.

(** The velocities themselves, as a fraction, for a crystal stable by [margin] GPa. *)
Definition velocities_near (x : mat6) (margin rho : R) (n : vec) (v0 v1 v2 : R) : Prop :=
  forall w0 w1 w2 s0 s1 s2, travels x rho n w0 s0 -> travels x rho n w1 s1 -> travels x rho n w2 s2 -> orthonormal3 w0 w1 w2 -> (s0 <= s1 <= s2)%R ->
    let part := (5e-2 / rho)%R in let e := ((3e-4 / margin + part) / (1 - part))%R in
    ElasticRoundProps.within e s0 v0 /\ ElasticRoundProps.within e s1 v1 /\ ElasticRoundProps.within e s2 v2.
(** A crystal stable by more than 3e-4 GPa: the three commands end normally; the log
    tells the description and the density; the tables have a line for each node with
    the waves of a crystal within 5e-5 GPa and 0.05 kg/m^3 of the printed one. *)
Theorem C108_crystal content x rho margin Sm : CliModel.fs w f = CliModel.File content -> crystal_output is_text content x rho -> room ->
  (5e-2 < rho)%R -> (3e-4 < margin)%R -> stable_by margin (mirrored x) -> proper_sphere ntheta nphi ->
  let c := kept round_abs (mirrored x) in let rho' := kept_density round_abs rho in
  inverse c = Some Sm -> inverse6 c Sm ->
  (forall i p, i < nt -> p < np -> SeismicIsoProps.solves eigh (SeismicModel.christoffel (SeismicModel.Cmat c rho') (vector (theta i) (phi p)))) ->
  symmetric6 c /\ alike c (mirrored x) /\ (Rabs (rho' - rho) <= 5e-2)%R /\ exists v v' h,
  inpgen SoecInpgenModel.Crystal f o (CliModel.Ok a) w = (CliModel.Ok tt, v) /\ seismic v = (CliModel.Ok tt, v') /\
  (forall q, q <> ip -> q <> lf -> q <> out -> CliModel.fs v' q = CliModel.fs w q) /\
  (exists before after, CliModel.fs v' lf = CliModel.File (RunLogProps.page (before ++
     ["Analysis of the sound velocities in " +++ title; ""; "Density: " +++ float_text rho' +++ " kg m^-3"; ""; "Stiffness matrix (values in GPa)"] ++ after))) /\
  CliModel.fs v' out = CliModel.File (encode h) /\
  forall decode complaint, decode (encode h) = Some h -> exists texts slow fast prim,
    lines (texts "ssecondary") = heading_of "  - slow secondary data (ssecondary)" ++ [""; ""] ++ slow ++ [""] /\
    lines (texts "fsecondary") = heading_of "  - fast secondary data (fsecondary)" ++ [""; ""] ++ fast ++ [""] /\
    lines (texts "primary") = heading_of "  - primary data (primary)" ++ [""; ""] ++ prim ++ [""] /\
    List.length slow = nt * np /\ List.length fast = nt * np /\ List.length prim = nt * np /\
    (forall i p, i < nt -> p < np -> exists u0 u1 u2 v0 v1 v2,
      wave_line ntheta nphi c rho' Sm 0 i p u0 v0 (nth (i * np + p) slow "") /\ wave_line ntheta nphi c rho' Sm 1 i p u1 v1 (nth (i * np + p) fast "") /\
      wave_line ntheta nphi c rho' Sm 2 i p u2 v2 (nth (i * np + p) prim "") /\ waves_near (mirrored x) rho rho' (polar (theta i) (phi p)) v0 v1 v2 /\
      velocities_near (mirrored x) margin rho (polar (theta i) (phi p)) v0 v1 v2) /\
    forall typed later, session texts ["ssecondary"; "fsecondary"; "primary"] out (CliModel.fs v') typed later ->
      exists v'' said, SeismicExportModel.export_main decode complaint out typed v' = (CliModel.Ok tt, v'') /\ CliModel.fs v'' = later /\
        conversation texts out (CliModel.fs v') typed said.
Proof.
  intros F C R0 D M B PS c rho' I IV SO.
  pose proof (ElasticChainProps.kept_alike round_abs round_near (mirrored x)) as A. fold c in A.
  pose proof (ElasticChainProps.kept_density_near round_abs round_near rho) as Dn. fold rho' in Dn.
  assert (D' : (0 < rho')%R) by (apply Rabs_le_inv in Dn; lra).
  assert (PD : positive_definite c) by (apply (ElasticChainProps.stable_positive _ (margin - 3e-4)); [lra|]; now apply (ElasticChainProps.alike_stable _ (mirrored x))).
  split; [apply ElasticChainProps.kept_symmetric, ElasticChainProps.mirrored_symmetric|]. split; [exact A|]. split; [exact Dn|].
  destruct (ElasticChainProps.crystal_written t round_abs is_text f o a w content x rho F C (data_room R0)) as (v & E & T & K).
  assert (H : ready inverse ntheta nphi "GPa" ip o2 a2 v (SoecIOModel.write round_abs (SoecInpgenProps.job_of a) (mirrored x) rho) title c rho' Sm).
  { apply (carried v (mirrored x) rho Sm R0 (ElasticChainProps.mirrored_symmetric x) T K); [fold rho'; lra|exact I]. }
  destruct (SeismicExportProps2.C107_waves inverse eigh pinv inv time_line float_text encode nan_case ntheta nphi ip o2 silent d a2 v _ title c rho' Sm H PS PD IV D' SO) as (v' & h & E' & S1 & Q).
  exists v, v', h. split; [exact E|]. split; [exact E'|].
  split; [|split; [|split; [exact S1|]]].
  - intros q N1 N2 N3. rewrite <- (K q N1).
    pose proof (SeismicCommandProps.C106_kept inverse eigh pinv inv time_line float_text encode nan_case ntheta nphi "GPa" ip o2 silent d a2 v _ title c rho' Sm H PS q N2 N3) as X.
    now rewrite E' in X.
  - destruct (SeismicCommandProps.C106_log inverse eigh pinv inv time_line float_text encode nan_case ntheta nphi "GPa" ip o2 silent d a2 v _ title c rho' Sm H PS) as (_ & stiff & compl & _ & _ & L).
    rewrite E' in L. cbn [snd] in L.
    match type of L with _ = CliModel.File (RunLogProps.page (?x1 ++ ?x2 ++ ?x3 ++ ?x4 ++ _ ++ ?y)) => exists (x1 ++ x2 ++ x3 ++ x4) end.
    match type of L with _ = CliModel.File (RunLogProps.page (_ ++ _ ++ _ ++ _ ++ _ ++ _ ++ ?y)) => exists y end.
    etransitivity; [exact L|]. rewrite <- !app_assoc. reflexivity.
  - intros decode complaint De. destruct (Q decode complaint De) as (texts & slow & fast & prim & L0 & L1 & L2 & G0 & G1 & G2 & V & S0).
    exists texts, slow, fast, prim. do 6 (split; [assumption|]). split.
    + intros i p Hi Hp. destruct (V i p Hi Hp) as (u0 & u1 & u2 & v0 & v1 & v2 & X0 & X1 & X2 & O & Le). exists u0, u1, u2, v0, v1, v2. do 3 (split; [assumption|]).
      destruct X0 as (l0 & (T0 & _) & _), X1 as (l1 & (T1 & _) & _), X2 as (l2 & (T2 & _) & _).
      assert (D0 : (0 < rho)%R) by lra. split; intros w0 w1 w2 s0 s1 s2 Y0 Y1 Y2 O' Le'.
      2: { intros part e. assert (Pr : (part * rho = 5e-2)%R) by (unfold part; field; lra).
        apply (proj2 (ElasticRoundProps.C109_waves (mirrored x) c margin A M B rho rho' (polar (theta i) (phi p)) w0 w1 w2 s0 s1 s2 u0 u1 u2 v0 v1 v2 D0 D' Y0 Y1 Y2 O' Le' T0 T1 T2 O Le)).
        - apply Rmult_lt_reg_r with rho; [exact D0|]. lra.
        - apply Rabs_le_inv in Dn. split; [exact D0|]. split; lra. }
      pose proof (polar_unit (theta i) (phi p)) as NU.
      pose proof (risen c (mirrored x) rho' rho (polar (theta i) (phi p)) u0 u1 u2 w0 w1 w2 v0 v1 v2 s0 s1 s2 A NU D' D0 T0 T1 T2 O Le Y0 Y1 Y2 O' Le') as (Z0 & Z1 & Z2).
      pose proof (risen (mirrored x) c rho rho' (polar (theta i) (phi p)) w0 w1 w2 u0 u1 u2 s0 s1 s2 v0 v1 v2 (alike_sym _ _ A) NU D0 D' Y0 Y1 Y2 O' Le' T0 T1 T2 O Le) as (Z3 & Z4 & Z5).
      split; [|split]; apply Rabs_le; lra.
    + intros typed later Se. destruct (S0 typed later Se) as (v'' & said & X1 & X2 & X3 & _). exists v'', said. split; [exact X1|]. split; [exact X2|exact X3].
Qed.

(** ** From VASP, or without a density *)
(** A file whose density reads as zero: the second command ends normally but writes
    nothing except the log, which ends with the complaint. *)
Lemma refused v x rho : room -> symmetric6 x -> CliModel.fs v ip = CliModel.File (SoecIOModel.write round_abs (SoecInpgenProps.job_of a) x rho) ->
  (forall q, q <> ip -> CliModel.fs v q = CliModel.fs w q) -> kept_density round_abs rho = 0%R -> (0 <= ntheta * azimuths_of ntheta nphi)%Z ->
  exists v', seismic v = (CliModel.Ok tt, v') /\ (forall q, q <> ip -> q <> lf -> CliModel.fs v' q = CliModel.fs w q) /\
  exists before, CliModel.fs v' lf = CliModel.File (RunLogProps.page (before ++ ["Density not provided, calculation aborted"])).
Proof.
  intros [D1 D2 D3 (T1 & T2)] Y F K Z0 S0. destruct paths_apart as (N1 & N2).
  assert (L : CliModel.fs v lf <> CliModel.Dir) by (rewrite K; [exact D2|exact N1]).
  destruct (SeismicCommandProps.C106_refused inverse eigh pinv inv time_line float_text encode nan_case ntheta nphi "GPa" ip o2 silent d a2 v _ _ F L N1 eq_refl S0) as (Q & _).
  destruct (Q title (kept round_abs x)) as (A & B & before & C).
  - rewrite <- Z0. now apply ElasticChainProps.written_described.
  - apply ElasticChainProps.kept_sized.
  - now apply ElasticChainProps.kept_symmetric.
  - exists (snd (seismic v)). split; [rewrite <- A; apply surjective_pairing|]. split; [|exists before; exact C].
    intros q M1 M2. rewrite <- (K q M1). now apply B.
Qed.
(** The outputs of VASP have no density, and none is asked for: no table of waves
    comes of the file which was generated. *)
Theorem C108_vasp_refuted content x : CliModel.fs w f = CliModel.File content -> vasp_output is_text content x -> room -> (0 <= ntheta * azimuths_of ntheta nphi)%Z ->
  exists v v', inpgen SoecInpgenModel.Vasp f o (CliModel.Ok a) w = (CliModel.Ok tt, v) /\ seismic v = (CliModel.Ok tt, v') /\
  (forall q, q <> ip -> q <> lf -> CliModel.fs v' q = CliModel.fs w q) /\
  exists before, CliModel.fs v' lf = CliModel.File (RunLogProps.page (before ++ ["Density not provided, calculation aborted"])).
Proof.
  intros F C R0 S0. destruct (ElasticChainProps.vasp_written t round_abs is_text f o a w content x F C (data_room R0)) as (v & E & T & K).
  assert (Y : symmetric6 (exchanged x)).
  { intros p q Hp Hq. apply (ElasticChainProps.vasp_symmetric _ _ _ C); now apply SoecInterfaceProps.yz_zx_range. }
  destruct (refused v (exchanged x) 0 R0 Y T K (ElasticChainProps.no_density round_abs round_near) S0) as (v' & E' & Q). exists v, v'. split; [exact E|]. split; [exact E'|exact Q].
Qed.
(** The same for a density below 0.05 kg/m^3, of which the file keeps one decimal. *)
Theorem C108_light_refuted content x rho : CliModel.fs w f = CliModel.File content -> crystal_output is_text content x rho -> room -> (0 <= ntheta * azimuths_of ntheta nphi)%Z ->
  (0 < rho < 5e-2)%R ->
  exists v v', inpgen SoecInpgenModel.Crystal f o (CliModel.Ok a) w = (CliModel.Ok tt, v) /\ seismic v = (CliModel.Ok tt, v') /\
  (forall q, q <> ip -> q <> lf -> CliModel.fs v' q = CliModel.fs w q) /\
  exists before, CliModel.fs v' lf = CliModel.File (RunLogProps.page (before ++ ["Density not provided, calculation aborted"])).
Proof.
  intros F C R0 S0 D. destruct (ElasticChainProps.crystal_written t round_abs is_text f o a w content x rho F C (data_room R0)) as (v & E & T & K).
  assert (Z0 : kept_density round_abs rho = 0%R).
  { unfold kept_density, SoecIOProps.rounded. pose proof (round_near 1 rho) as Q. rewrite (Rabs_right rho) in Q by lra.
    assert (round_abs 1 rho = 0%N) as ->; [|cbn [Z.of_N]; ring].
    destruct (round_abs 1 rho) as [|p]; [reflexivity|]. exfalso. apply Rabs_le_inv in Q. assert (1 <= IZR (Z.of_N (N.pos p)))%R by (apply IZR_le; lia). simpl pow in Q. lra. }
  destruct (refused v (mirrored x) rho R0 (ElasticChainProps.mirrored_symmetric x) T K Z0 S0) as (v' & E' & Q). exists v, v'. split; [exact E|]. split; [exact E'|exact Q].
Qed.
End Chain.

(** * Concrete cases *)
Import ElasticChainProps.
Notation no_texts := (CliModel.Build_texts "" "" "" "" "" "" "").
Notation seismic_of f := (SeismicCommandModel.seismic_main (only glass (isotropic_S 5 3)) SeismicCommandProps.axes (fun A => A) (fun A => A) "Calculation time: 1.0 s" (fun _ => "2500.0") (fun h => "h5")
  (fun _ => ([], CliModel.Raises "")) 2 2 "GPa" f None true false (CliModel.Ok false)).
Lemma glass_margin : stable_by 3 (mirrored glass).
Proof.
  intros e. unfold energy, apply6, length2, mirrored, glass. cbn [Nat.min Nat.max nth].
  pose proof (Rle_0_sqr (e 0%nat + e 1%nat + e 2%nat)%R). pose proof (Rle_0_sqr (e 0%nat)). pose proof (Rle_0_sqr (e 1%nat)). pose proof (Rle_0_sqr (e 2%nat)). unfold Rsqr in *. lra.
Qed.
(** An output of CRYSTAL in /work; the table of the slow waves under the offered name. *)
Example C108_instance : let w := disk_of "/work/g.out" glass_out in
  exists v v' h, SoecInpgenModel.soec_inpgen no_texts scaled (fun _ => true) SoecInpgenModel.Crystal "/work/g.out" None (CliModel.Ok "Glass, B3LYP") w = (CliModel.Ok tt, v) /\
  seismic_of "/work/g_soec_input.dat" v = (CliModel.Ok tt, v') /\ CliModel.fs v' "/work/g.out" = CliModel.File glass_out /\
  (exists before after, CliModel.fs v' "/work/g_soec_input_SEISMIC.txt" = CliModel.File (RunLogProps.page (before ++
     ["Analysis of the sound velocities in Glass, B3LYP"; ""; "Density: 2500.0 kg m^-3"; ""; "Stiffness matrix (values in GPa)"] ++ after))) /\
  exists texts slow u v0, lines (texts "ssecondary") = heading_of "  - slow secondary data (ssecondary)" ++ [""; ""] ++ slow ++ [""] /\ List.length slow = 4 /\
  wave_line 2 2 glass 2500 (isotropic_S 5 3) 0 1 0 u v0 (nth 2 slow "") /\
  exists v'', SeismicExportModel.export_main (fun _ => Some h) (fun _ _ => "") "/work/g_soec_input_SEISMIC.hdf5" ["ssecondary"; "n"] v' = (CliModel.Ok tt, v'') /\
    CliModel.fs v'' "/work/g_soec_input_SEISMIC_ssecondary.dat" = CliModel.File (texts "ssecondary").
Proof.
  intros w. destruct glass_facts as (_ & _ & I & _ & _). assert (RHO : kept_density scaled 2500 = 2500%R) by apply rounded_int.
  destruct (C108_crystal no_texts scaled scaled_near (fun _ => true) (only glass (isotropic_S 5 3)) SeismicCommandProps.axes (fun A => A) (fun A => A) "Calculation time: 1.0 s" (fun _ => "2500.0") (fun h => "h5")
    (fun _ => ([], CliModel.Raises "")) 2 2 "/work/g.out" None None "Glass, B3LYP" true false (CliModel.Ok false) w glass_out glass 2500 3 (isotropic_S 5 3))
    as (_ & _ & _ & v & v' & h & E & E' & K & L & _ & Q).
  - reflexivity.
  - exact glass_output.
  - constructor; [discriminate|discriminate|now left|]. split; [reflexivity|exists "G"%char; split; reflexivity].
  - lra.
  - lra.
  - exact glass_margin.
  - split; unfold azimuths_of; cbn; lia.
  - rewrite glass_kept. unfold only. now destruct (Req_EM_T _ _).
  - rewrite glass_kept. exact I.
  - rewrite glass_kept, RHO. exact SeismicCommandProps.glass_corners.
  - rewrite glass_kept, RHO in Q. exists v, v', h. split; [exact E|]. split; [exact E'|]. split; [rewrite K; [reflexivity| | |]; vm_compute; discriminate|]. split; [exact L|].
    destruct (Q (fun _ => Some h) (fun _ _ => "") eq_refl) as (texts & slow & fast & prim & L0 & _ & _ & N0 & _ & _ & W & S0).
    destruct (W 1 0 ltac:(cbn; lia) ltac:(cbn; lia)) as (u0 & u1 & u2 & v0 & v1 & v2 & W0 & _).
    exists texts, slow, u0, v0. split; [exact L0|]. split; [exact N0|]. split; [exact W0|].
    destruct (S0 ["ssecondary"; "n"] (CliModel.update (CliModel.fs v') "/work/g_soec_input_SEISMIC_ssecondary.dat" (CliModel.File (texts "ssecondary")))) as (v'' & said & E'' & F'' & _).
    { apply (stops _ _ _ _ ["ssecondary"] "ssecondary" "/work/g_soec_input_SEISMIC_ssecondary.dat" "n"); [cbn; tauto| |cbn; tauto].
      apply (as_offered "/work/g_soec_input_SEISMIC.hdf5" (CliModel.fs v') "ssecondary").
      transitivity (CliModel.fs w "/work/g_soec_input_SEISMIC_ssecondary.dat"); [|reflexivity]. apply K; vm_compute; discriminate. }
    exists v''. split; [exact E''|]. rewrite F''. unfold CliModel.update. now rewrite String.eqb_refl.
Qed.
(** The glass itself meets the comparison: two waves at 3000 MPa and one at 9000. *)
Example C108_near_instance : let n : vec := fun i => if i =? 0 then 1%R else 0%R in let e k : vec := fun i => if i =? k then 1%R else 0%R in
  let s := sqrt (12 / 10) in let q := sqrt (36 / 10) in
  travels (mirrored glass) 2500 n (e 1) s /\ travels (mirrored glass) 2500 n (e 2) s /\ travels (mirrored glass) 2500 n (e 0) q /\ orthonormal3 (e 1) (e 2) (e 0) /\ (s <= s <= q)%R /\
  waves_near (mirrored glass) 2500 2500 n s s q.
Proof.
  intros n e s q. assert (S2 : (s * s = 12 / 10)%R) by (apply sqrt_sqrt; lra). assert (Q2 : (q * q = 36 / 10)%R) by (apply sqrt_sqrt; lra).
  assert (SP : (0 < s)%R) by (apply sqrt_lt_R0; lra). assert (QP : (0 < q)%R) by (apply sqrt_lt_R0; lra). assert (SQ : (s <= q)%R) by (apply sqrt_le_1_alt; lra).
  assert (A : alike (mirrored glass) (mirrored glass)) by (intros i j _ _; rewrite Rminus_diag_eq, Rabs_R0 by reflexivity; lra).
  assert (T1 : travels (mirrored glass) 2500 n (e 1) s).
  { split; [exact SP|]. split; [unfold dot, e; cbn [Nat.eqb]; lra|]. intros i Hi. replace (s ^ 2)%R with (12 / 10)%R by lra.
    destruct i as [|[|[|i]]]; [| | |lia]; unfold sum_3, C_ijkl, vm, mirrored, glass, n, e; cbn [nth Nat.eqb Nat.min Nat.max]; lra. }
  assert (T2 : travels (mirrored glass) 2500 n (e 2) s).
  { split; [exact SP|]. split; [unfold dot, e; cbn [Nat.eqb]; lra|]. intros i Hi. replace (s ^ 2)%R with (12 / 10)%R by lra.
    destruct i as [|[|[|i]]]; [| | |lia]; unfold sum_3, C_ijkl, vm, mirrored, glass, n, e; cbn [nth Nat.eqb Nat.min Nat.max]; lra. }
  assert (T0 : travels (mirrored glass) 2500 n (e 0) q).
  { split; [exact QP|]. split; [unfold dot, e; cbn [Nat.eqb]; lra|]. intros i Hi. replace (q ^ 2)%R with (36 / 10)%R by lra.
    destruct i as [|[|[|i]]]; [| | |lia]; unfold sum_3, C_ijkl, vm, mirrored, glass, n, e; cbn [nth Nat.eqb Nat.min Nat.max]; lra. }
  assert (O : orthonormal3 (e 1) (e 2) (e 0)) by (unfold orthonormal3, dot, e; cbn [Nat.eqb]; repeat split; lra).
  assert (NU : dot n n = 1%R) by (unfold dot, n; cbn [Nat.eqb]; lra). assert (Le : (s <= s <= q)%R) by lra.
  split; [exact T1|]. split; [exact T2|]. split; [exact T0|]. split; [exact O|]. split; [exact Le|].
  intros w0 w1 w2 s0 s1 s2 Y0 Y1 Y2 O' Le'. assert (D : (0 < 2500)%R) by lra.
  pose proof (risen _ _ 2500 2500 n _ _ _ w0 w1 w2 _ _ _ s0 s1 s2 A NU D D T1 T2 T0 O Le Y0 Y1 Y2 O' Le') as (Z0 & Z1 & Z2).
  pose proof (risen _ _ 2500 2500 n w0 w1 w2 _ _ _ s0 s1 s2 _ _ _ A NU D D Y0 Y1 Y2 O' Le' T1 T2 T0 O Le) as (Z3 & Z4 & Z5).
  split; [|split]; apply Rabs_le; lra.
Qed.
(** An output of VASP in /work: a log and no results. *)
Example C108_vasp_instance : let w := disk_of "/work/OUTCAR" uneven_out in
  exists v v', SoecInpgenModel.soec_inpgen no_texts scaled (fun _ => true) SoecInpgenModel.Vasp "/work/OUTCAR" (Some "/work/e") (CliModel.Ok "") w = (CliModel.Ok tt, v) /\
  seismic_of "/work/e.dat" v = (CliModel.Ok tt, v') /\ CliModel.fs v' "/work/e_SEISMIC.hdf5" = CliModel.Absent /\
  exists before, CliModel.fs v' "/work/e_SEISMIC.txt" = CliModel.File (RunLogProps.page (before ++ ["Density not provided, calculation aborted"])).
Proof.
  intros w.
  destruct (C108_vasp_refuted no_texts scaled scaled_near (fun _ => true) (only glass (isotropic_S 5 3)) SeismicCommandProps.axes (fun A => A) (fun A => A) "Calculation time: 1.0 s" (fun _ => "2500.0") (fun h => "h5")
    (fun _ => ([], CliModel.Raises "")) 2 2 "/work/OUTCAR" (Some "/work/e") None "" true false (CliModel.Ok false) w uneven_out uneven) as (v & v' & E & E' & K & L).
  - reflexivity.
  - exact uneven_output.
  - constructor; [discriminate|discriminate|now left|]. vm_compute. split; [reflexivity|eexists; split; reflexivity].
  - unfold azimuths_of. cbn. lia.
  - exists v, v'. split; [exact E|]. split; [exact E'|]. split; [rewrite K; [reflexivity| |]; vm_compute; discriminate|exact L].
Qed.
(** An aerogel of 0.04 kg/m^3. *)
Definition light_out : string := ended_lines
  [" ELASTCON OPTION"; " GEOMETRY NOW FULLY CONSISTENT WITH THE GROUP"; " PRIMITIVE CELL - CENTRING CODE 1/0 VOLUME= 74.7 - DENSITY 0.00004 g/cm^3";
   " SYMMETRIZED ELASTIC CONSTANTS FOR CUBIC CASE, IN GPa"; "";
   " | 9 3 3 0 0 0 |"; " | 9 3 0 0 0 |"; " | 9 0 0 0 |"; " | 3 0 0 |"; " | 3 0 |"; " | 3 |"; " FINAL RESULTS START"].
Lemma light_output : crystal_output (fun _ => true) light_out glass (4 / 100).
Proof.
  constructor.
  - reflexivity.
  - eexists. vm_compute. reflexivity.
  - intros i j H.
    do 6 (destruct i as [|i]; [do 6 (destruct j as [|j]; [first [exfalso; lia|do 2 eexists; split; [vm_compute; reflexivity|split; [vm_compute; reflexivity|read_number; unfold glass; cbn; lra]]]|]); exfalso; lia|]). exfalso. lia.
  - assert (D : SoecInterfaceModel.crystal_density (readlines light_out) = inl (fmul (literal false "0" "00004" 0) (Num 1000))) by (vm_compute; reflexivity).
    rewrite D. f_equal. unfold literal, fmul. change (Z.of_N (digits ("0" +++ "00004"))) with 4%Z. change (0 - Z.of_nat (String.length "00004"))%Z with (-5)%Z. cbv beta iota zeta delta [powerRZ Pos.to_nat Pos.iter_op Nat.add]. cbn [fop]. f_equal. simpl pow. lra.
Qed.
Example C108_light_instance : let w := disk_of "/work/g.out" light_out in
  exists v v', SoecInpgenModel.soec_inpgen no_texts scaled (fun _ => true) SoecInpgenModel.Crystal "/work/g.out" None (CliModel.Ok "Gel") w = (CliModel.Ok tt, v) /\
  seismic_of "/work/g_soec_input.dat" v = (CliModel.Ok tt, v') /\ CliModel.fs v' "/work/g_soec_input_SEISMIC.hdf5" = CliModel.Absent.
Proof.
  intros w.
  destruct (C108_light_refuted no_texts scaled scaled_near (fun _ => true) (only glass (isotropic_S 5 3)) SeismicCommandProps.axes (fun A => A) (fun A => A) "Calculation time: 1.0 s" (fun _ => "2500.0") (fun h => "h5")
    (fun _ => ([], CliModel.Raises "")) 2 2 "/work/g.out" None None "Gel" true false (CliModel.Ok false) w light_out glass (4 / 100)) as (v & v' & E & E' & K & L).
  - reflexivity.
  - exact light_output.
  - constructor; [discriminate|discriminate|now left|]. split; [reflexivity|exists "G"%char; split; reflexivity].
  - unfold azimuths_of. cbn. lia.
  - lra.
  - exists v, v'. split; [exact E|]. split; [exact E'|]. rewrite K; [reflexivity| |]; vm_compute; discriminate.
Qed.

Print Assumptions C108_crystal.
Print Assumptions C108_vasp_refuted.
Print Assumptions C108_light_refuted.
