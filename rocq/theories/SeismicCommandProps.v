(** C106: `quantas seismic FILE` from the text of the file to its log and result
    file. *)
From Coq Require Import Reals String Ascii List Bool Arith ZArith Lia Lra.
From Verif Require SoecIOModel SoecIOProps CliModel CliProofs CliProps CitationsModel RunLogProps QhaRunModel SeismicModel SeismicProps SeismicIsoProps SeismicTableModel
  SoecTableModel SoecCommandModel.
From Verif Require Import Py DecimalModel DecimalProofs FormatModel FormatProofs TableModel SymmetryModel TensorModel TensorProps AverageProps
  ReportModel ReportSpec ReportProofs SoecReportModel SoecReportProps SoecCommandProps SeismicNodeProofs SeismicCommandModel.
Import ListNotations.
Open Scope string_scope.
Open Scope list_scope.
Open Scope nat_scope.

(** ** What a run tells *)
(** Lines which are printed only with --debug. *)
Definition noted (d : bool) (l : list string) : list string := if d then map (fun x => "Debug: " +++ x) l else [].
(** The loops over the sphere. *)
Definition node_notes : list string :=
  map (fun x => "   - " +++ x +++ " (done)")
    ["phase velocity"; "polarization"; "group velocity"; "group absolute"; "powerflow angle"; "enhancement factor"; "storing the results"].
Definition sphere_notes (nt np : nat) : list string :=
  List.concat (map (fun t => ["Calculation of point " +++ int_text (Z.of_nat t) +++ "/" +++ int_text (Z.of_nat nt) +++ ":"] ++
    List.concat (repeat node_notes np) ++ ["   - moving to the next point"]) (seq 0 nt)).
(** The settings at the head of the log. *)
Definition settings_text (nt np : Z) (punit : string) : string :=
  let dashes := "-------------------------------------" in
  String.concat (String newline "")
    [""; "Calculator: wave velocities from Christoffel's equation";
     ""; "Number of angular points"; dashes; " - ntheta:      " +++ int_text nt; " - nphi:        " +++ int_text np;
     ""; "Measurement units"; dashes; " - pressure:    " +++ punit;
     ""; "Plotting"; dashes; " - requested:   False"; ""].
Lemma settings_are nt np punit : print_settings nt np punit = settings_text nt np punit.
Proof.
  unfold settings_text, print_settings. cbv zeta. cbn [String.concat]. rewrite !append_assoc. reflexivity.
Qed.

Lemma hears_say d l : RunLogProps.voices d (SoecCommandModel.say l) = l.
Proof. apply (SoecCommandProps.hears_say d). Qed.
Lemma hears_hush d l : RunLogProps.voices d (SoecCommandModel.hush l) = noted d l.
Proof.
  unfold noted. induction l as [|m l IH]; [now destruct d|].
  change (RunLogProps.voices d (SoecCommandModel.hush (m :: l))) with (RunLogProps.voice d (CliModel.Debug m) ++ RunLogProps.voices d (SoecCommandModel.hush l)).
  rewrite IH. destruct d; reflexivity.
Qed.
Lemma sphere_notes_are nt np : (0 <= nt)%Z -> loop_lines nt np = sphere_notes (Z.to_nat nt) (Z.to_nat np).
Proof.
  intros H. unfold loop_lines, sphere_notes. rewrite flat_map_concat_map. f_equal. apply map_ext. intros t. cbn [app].
  rewrite Z2Nat.id by exact H. unfold theta_line. f_equal. f_equal. rewrite flat_map_concat_map. f_equal.
  generalize 0. induction (Z.to_nat np) as [|k IH]; intros s; [reflexivity|]. cbn [seq map repeat]. now rewrite IH.
Qed.

Section Command.
Variable inverse : mat6 -> option mat6.
Variable eigh : SeismicModel.mat3 -> (nat -> R) * SeismicModel.mat3.
Variables pinv inv : SeismicModel.mat3 -> SeismicModel.mat3.
Variables (time_line : string) (float_text : R -> string) (encode : h5 -> string).
Variable nan_case : SoecIOModel.data -> CliModel.method (string + CliModel.job).
Variables (ntheta nphi : Z) (punit f : string) (o : option string) (silent d : bool) (a : CliModel.result bool) (w : CliModel.world).
(** The number of azimuths of the run: the one which is asked for, but 720 stands for
    four times the number of polar angles. *)
Definition azimuths_of : Z := if Z.eq_dec nphi 720 then (if Z.eq_dec ntheta 180 then 720 else 4 * ntheta)%Z else nphi.
Notation settings := (print_settings ntheta azimuths_of punit).
Notation command := (CliModel.seismic_command settings).
Notation out := (CliModel.outpath command f o).
Notation lf := (CliModel.logpath out).
Notation run_command := (seismic_main inverse eigh pinv inv time_line float_text encode nan_case ntheta nphi punit f o silent d a w).
Notation calculator := (seismic_calculator inverse eigh pinv inv time_line float_text encode nan_case ntheta azimuths_of punit f out).
Notation the_job := (seismic_job eigh pinv inv time_line float_text encode ntheta azimuths_of punit out).

Lemma azimuths_are : azimuths ntheta nphi = azimuths_of.
Proof.
  unfold azimuths, azimuths_of. destruct (Z.eqb_spec ntheta 180), (Z.eqb_spec nphi 720); destruct (Z.eq_dec nphi 720), (Z.eq_dec ntheta 180); congruence || lia.
Qed.
Lemma main_is : run_command = CliModel.main CitationsModel.seismic_texts command f o silent d calculator a w.
Proof. unfold seismic_main. cbv zeta. now rewrite azimuths_are. Qed.

(** A readable file with a symmetric matrix and a density, and a place to write to. *)
Record readable (text name : string) (c : mat6) (rho : R) : Prop := {
  input_file : CliModel.fs w f = CliModel.File text;
  input_text : describes (readlines text) name c rho;
  input_size : sized c;
  input_symmetric : symmetric6 c;
  log_free : CliModel.fs w lf <> CliModel.Dir;
  log_not_input : lf <> f }.
Record ready (text name : string) (c : mat6) (rho : R) (Sm : mat6) : Prop := {
  is_readable : readable text name c rho;
  has_density : rho <> 0%R;
  compliances : inverse c = Some Sm;
  out_free : CliModel.fs w out = CliModel.Absent \/ CliModel.fs w out <> CliModel.Dir /\ a = CliModel.Ok true }.
(** Two nodes or more along each angle. *)
Definition proper_sphere : Prop := (2 <= ntheta /\ 2 <= azimuths_of)%Z.

Lemma new_ok : (0 <= ntheta * azimuths_of)%Z -> seismic_new ntheta azimuths_of =
  (SoecCommandModel.hush ["Seismic calculator object instantiated"; "Input and output variables set"; "Plotting disabled"], CliModel.Ok tt).
Proof. intros H. unfold seismic_new. destruct (Z.ltb_spec (ntheta * azimuths_of) 0); [lia|reflexivity]. Qed.
Lemma zero_not rho : rho <> 0%R -> SeismicTableModel.is_zero (Num rho) = false.
Proof. intros H. unfold SeismicTableModel.is_zero. now destruct (Req_EM_T rho 0). Qed.
Definition accepted_notes : list string :=
  ["Instantiate file reader"; "Input file correctly read"; "Job name set"; "Seismic object instantiated"].
Lemma reads_job text name c rho Sm : ready text name c rho Sm ->
  snd (CliModel.read_input calculator text) = CliModel.Ok (inr (the_job name rho c Sm)) /\
  RunLogProps.voices d (fst (CliModel.read_input calculator text)) = ["Reading input file: " +++ f] ++ noted d accepted_notes.
Proof.
  intros [[F D Z Y L N] R1 I O]. destruct (described_load _ _ _ _ D Y Z) as (m & E & M).
  cbn [CliModel.read_input seismic_calculator]. unfold seismic_read. rewrite E. cbn [SoecIOModel.stiffness SoecIOModel.density SoecIOModel.job].
  rewrite (zero_not rho R1), M, I. cbn [fst snd]. split; [reflexivity|]. rewrite !RunLogProps.voices_app, hears_say, !hears_hush, <- !app_assoc.
  f_equal. unfold noted. now destruct d.
Qed.

Section Run.
Variables (text name : string) (c : mat6) (rho : R) (Sm : mat6).
Variable H : ready text name c rho Sm.
Lemma completes slow fast prim : (0 <= ntheta)%Z -> (0 <= ntheta * azimuths_of)%Z ->
  tables eigh pinv inv ntheta azimuths_of rho c Sm = QhaRunModel.Ok (slow, fast, prim) ->
  exists v, run_command = (CliModel.Ok tt, v) /\
  CliModel.fs v out = CliModel.File (encode (SeismicTableModel.seismic_file punit slow fast prim)) /\
  CliModel.fs v lf = CliModel.File (RunLogProps.page (
    [""; CitationsModel.quantas_title; settings] ++
    noted d ["Seismic calculator object instantiated"; "Input and output variables set"; "Plotting disabled"] ++
    ["Reading input file: " +++ f] ++ noted d accepted_notes ++
    report_input name (float_text rho) c Sm ++
    noted d ["Start Seismic analysis"; "Calculate isotropic velocities"] ++ [start_line] ++
    noted d (sphere_notes (Z.to_nat ntheta) (Z.to_nat azimuths_of)) ++ [""; time_line] ++ noted d ["Run completed. Exiting main routine."] ++
    [""; "Calculated data exported to " +++ out] ++ RunLogProps.references CitationsModel.seismic_texts)) /\
  forall q, q <> lf -> q <> out -> CliModel.fs v q = CliModel.fs w q.
Proof.
  intros T0 TN T. destruct (reads_job _ _ _ _ _ H) as (E & B). destruct H as [[F D Z Y L N] R1 I O].
  pose proof (new_ok TN) as NW.
  assert (RN : seismic_run eigh pinv inv time_line ntheta azimuths_of rho c Sm =
    ((SoecCommandModel.hush ["Start Seismic analysis"; "Calculate isotropic velocities"] ++ SoecCommandModel.say [start_line]) ++
     SoecCommandModel.hush (loop_lines ntheta azimuths_of) ++ SoecCommandModel.say [""; time_line] ++ SoecCommandModel.hush ["Run completed. Exiting main routine."], CliModel.Ok None)).
  { unfold seismic_run. rewrite T. destruct (Z.ltb_spec ntheta 0); [lia|reflexivity]. }
  destruct (RunLogProps.C93_completed CitationsModel.seismic_texts command f o silent d calculator a w text (the_job name rho c Sm)) as (v & M & S1 & S2 & S3).
  - do 3 right. left. reflexivity.
  - exact F.
  - exact L.
  - exact N.
  - cbn [CliModel.new seismic_calculator]. now rewrite NW.
  - exact E.
  - reflexivity.
  - cbn [CliModel.run seismic_job]. now rewrite RN.
  - intros X. discriminate X.
  - exact O.
  - exists v. rewrite main_is. split; [exact M|]. split; [|split; [|exact S3]].
    + rewrite S1. cbn [CliModel.saved seismic_job]. unfold seismic_stored. now rewrite T.
    + rewrite S2. f_equal. f_equal. apply f_equal2; [reflexivity|].
      unfold RunLogProps.told_by. rewrite B. cbn [CliModel.reports CliModel.new CliModel.seismic_command seismic_calculator CliModel.report_input_data CliModel.run CliModel.exported seismic_job fst].
      rewrite NW, RN. cbn [fst]. rewrite !RunLogProps.voices_app, !hears_say, !hears_hush, app_nil_r, (sphere_notes_are _ _ T0). rewrite <- !app_assoc. reflexivity.
Qed.

(** *** The log *)
(** The settings, the name, density and matrices of the input, and where the results
    went. *)
Theorem C106_log : proper_sphere ->
  fst run_command = CliModel.Ok tt /\ exists stiff compl,
  matrix_rows 4 c stiff /\ matrix_rows 6 (fun i j => (1000 * Sm i j)%R) compl /\
  CliModel.fs (snd run_command) lf = CliModel.File (RunLogProps.page (
    [""; CitationsModel.quantas_title; settings_text ntheta azimuths_of punit] ++
    noted d ["Seismic calculator object instantiated"; "Input and output variables set"; "Plotting disabled"] ++
    ["Reading input file: " +++ f] ++ noted d accepted_notes ++
    ["Analysis of the sound velocities in " +++ name; ""; "Density: " +++ float_text rho +++ " kg m^-3"; ""] ++
    ["Stiffness matrix (values in GPa)"] ++ stiff ++ [""; "Compliance tensor (values in TPa^-1)"] ++ compl ++ [""] ++
    noted d ["Start Seismic analysis"; "Calculate isotropic velocities"] ++ ["Start calculation of velocities by solving Christoffel's equation"] ++
    noted d (sphere_notes (Z.to_nat ntheta) (Z.to_nat azimuths_of)) ++ [""; time_line] ++ noted d ["Run completed. Exiting main routine."] ++
    [""; "Calculated data exported to " +++ out] ++ RunLogProps.references CitationsModel.seismic_texts)).
Proof.
  intros [T P].
  destruct (mode_rows_at eigh pinv inv c Sm rho (Z.to_nat ntheta) (Z.to_nat azimuths_of) 0 ltac:(lia) ltac:(lia)) as (slow & E0 & _).
  destruct (mode_rows_at eigh pinv inv c Sm rho (Z.to_nat ntheta) (Z.to_nat azimuths_of) 1 ltac:(lia) ltac:(lia)) as (fast & E1 & _).
  destruct (mode_rows_at eigh pinv inv c Sm rho (Z.to_nat ntheta) (Z.to_nat azimuths_of) 2 ltac:(lia) ltac:(lia)) as (prim & E2 & _).
  destruct (completes slow fast prim ltac:(lia) ltac:(lia)) as (v & E & _ & L & _).
  { unfold tables, mode. rewrite E0, E1, E2. reflexivity. }
  rewrite E. cbn [fst snd]. split; [reflexivity|].
  exists (map (fun i => six (fun x => right 10 4 (Fin x)) (c i)) (seq 0 6)), (map (fun i => six (fun x => right_plain 9 6 (Fin x)) (fun j => (Sm i j * 1000)%R)) (seq 0 6)).
  split; [|split].
  - apply rows_say. intros i. apply six_says. intros x. apply (says_right 10 4 (Fin x)). lia.
  - apply rows_say. intros i. pose proof (six_says (fun x => right_plain 9 6 (Fin x)) 6 (fun j => (Sm i j * 1000)%R)) as Q.
    rewrite (map_ext (fun j => Decimals 6 (1000 * Sm i j)) (fun j => Decimals 6 (Sm i j * 1000))) by (intros j; f_equal; ring).
    apply Q. intros x. apply (says_right_plain 9 6 (Fin x)). lia.
  - rewrite L, settings_are. unfold report_input, start_line. rewrite <- !app_assoc. reflexivity.
Qed.

(** *** The results *)
(** Three tables, one row for each node of the half sphere in the order of the two
    loops; the rows of a node describe three waves of the crystal along the direction
    of the node, slowest first, with orthogonal displacements. *)
Theorem C106_saved : proper_sphere -> positive_definite c -> inverse6 c Sm -> (0 < rho)%R ->
  let nt := Z.to_nat ntheta in let np := Z.to_nat azimuths_of in
  let theta t := (PI / 2 * (INR t / (INR nt - 1)))%R in let phi p := (2 * PI * (INR p / (INR np - 1)))%R in
  (forall t p, t < nt -> p < np -> SeismicIsoProps.solves eigh (SeismicModel.christoffel (SeismicModel.Cmat c rho) (vector (theta t) (phi p)))) ->
  exists slow fast prim, CliModel.fs (snd run_command) out = CliModel.File (encode
    {| info := Some (SeismicTableModel.seismic_info punit);
       datasets := [("ssecondary", {| values := Mat slow; unit_of := "" |}); ("fsecondary", {| values := Mat fast; unit_of := "" |});
                    ("primary", {| values := Mat prim; unit_of := "" |})] |}) /\
  List.length slow = nt * np /\ List.length fast = nt * np /\ List.length prim = nt * np /\
  forall t p, t < nt -> p < np -> exists u0 u1 u2 v0 v1 v2,
    wave_row c Sm rho (theta t) (phi p) 0 u0 v0 (nth (t * np + p) slow []) /\
    wave_row c Sm rho (theta t) (phi p) 1 u1 v1 (nth (t * np + p) fast []) /\
    wave_row c Sm rho (theta t) (phi p) 2 u2 v2 (nth (t * np + p) prim []) /\
    orthonormal3 u0 u1 u2 /\ (v0 <= v1 <= v2)%R.
Proof.
  intros [T P] PD IV D nt np theta phi SO.
  destruct (mode_rows_at eigh pinv inv c Sm rho nt np 0 ltac:(lia) ltac:(lia)) as (slow & E0 & L0 & V0).
  destruct (mode_rows_at eigh pinv inv c Sm rho nt np 1 ltac:(lia) ltac:(lia)) as (fast & E1 & L1 & V1).
  destruct (mode_rows_at eigh pinv inv c Sm rho nt np 2 ltac:(lia) ltac:(lia)) as (prim & E2 & L2 & V2).
  destruct (completes slow fast prim ltac:(lia) ltac:(lia)) as (v & E & S1 & _).
  { unfold tables, mode. fold nt np. rewrite E0, E1, E2. reflexivity. }
  rewrite E. cbn [snd]. exists slow, fast, prim. split; [exact S1|]. split; [exact L0|]. split; [exact L1|]. split; [exact L2|].
  intros t p Ht Hp. specialize (SO t p Ht Hp). pose proof (input_symmetric _ _ _ _ (is_readable _ _ _ _ _ H)) as Y.
  pose proof (fun i l => mode_row eigh pinv inv c Sm rho (theta t) (phi p) Y PD IV D SO i l) as Q.
  destruct (modes_ordered eigh c rho (theta t) (phi p) PD D SO) as (O & V).
  do 6 eexists. split; [apply (Q 0); [lia|apply V0; assumption]|]. split; [apply (Q 1); [lia|apply V1; assumption]|].
  split; [apply (Q 2); [lia|apply V2; assumption]|]. split; [exact O|exact V].
Qed.
(** Nothing else is written. *)
Theorem C106_kept : proper_sphere -> forall q, q <> lf -> q <> out -> CliModel.fs (snd run_command) q = CliModel.fs w q.
Proof.
  intros [T P].
  destruct (mode_rows_at eigh pinv inv c Sm rho (Z.to_nat ntheta) (Z.to_nat azimuths_of) 0 ltac:(lia) ltac:(lia)) as (slow & E0 & _).
  destruct (mode_rows_at eigh pinv inv c Sm rho (Z.to_nat ntheta) (Z.to_nat azimuths_of) 1 ltac:(lia) ltac:(lia)) as (fast & E1 & _).
  destruct (mode_rows_at eigh pinv inv c Sm rho (Z.to_nat ntheta) (Z.to_nat azimuths_of) 2 ltac:(lia) ltac:(lia)) as (prim & E2 & _).
  destruct (completes slow fast prim ltac:(lia) ltac:(lia)) as (v & E & _ & _ & K).
  { unfold tables, mode. rewrite E0, E1, E2. reflexivity. }
  rewrite E. exact K.
Qed.

(** *** Isotropic and unstable materials *)
Theorem C106_isotropic K G : proper_sphere -> (0 < K)%R -> (0 < G)%R -> (0 < rho)%R -> (forall p q, p < 6 -> q < 6 -> c p q = isotropic_C K G p q) -> inverse6 c Sm ->
  let nt := Z.to_nat ntheta in let np := Z.to_nat azimuths_of in
  let theta t := (PI / 2 * (INR t / (INR nt - 1)))%R in let phi p := (2 * PI * (INR p / (INR np - 1)))%R in
  (forall t p, t < nt -> p < np -> SeismicIsoProps.solves eigh (SeismicModel.christoffel (SeismicModel.Cmat c rho) (vector (theta t) (phi p)))) ->
  exists slow fast prim, CliModel.fs (snd run_command) out = CliModel.File (encode (SeismicTableModel.seismic_file punit slow fast prim)) /\
  forall t p, t < nt -> p < np ->
    isotropic_row K G rho (theta t) (phi p) 0 (nth (t * np + p) slow []) /\ isotropic_row K G rho (theta t) (phi p) 1 (nth (t * np + p) fast []) /\
    isotropic_row K G rho (theta t) (phi p) 2 (nth (t * np + p) prim []).
Proof.
  intros [T P] HK HG D HC IV nt np theta phi SO.
  destruct (mode_rows_at eigh pinv inv c Sm rho nt np 0 ltac:(lia) ltac:(lia)) as (slow & E0 & _ & V0).
  destruct (mode_rows_at eigh pinv inv c Sm rho nt np 1 ltac:(lia) ltac:(lia)) as (fast & E1 & _ & V1).
  destruct (mode_rows_at eigh pinv inv c Sm rho nt np 2 ltac:(lia) ltac:(lia)) as (prim & E2 & _ & V2).
  destruct (completes slow fast prim ltac:(lia) ltac:(lia)) as (v & E & S1 & _).
  { unfold tables, mode. fold nt np. rewrite E0, E1, E2. reflexivity. }
  rewrite E. cbn [snd]. exists slow, fast, prim. split; [exact S1|].
  intros t p Ht Hp. specialize (SO t p Ht Hp).
  pose proof (fun i l => iso_row eigh pinv inv K G rho c Sm (theta t) (phi p) i l HK HG D HC IV SO) as Q.
  split; [|split]; [apply Q; [lia|now apply V0]|apply Q; [lia|now apply V1]|apply Q; [lia|now apply V2]].
Qed.
(** A crystal which a displacement x of a wave along a node makes unstable is not
    refused: its slow velocity there is saved as a negative number. *)
Theorem C106_unstable_refuted t p (x : vec) : proper_sphere -> (0 < rho)%R ->
  let nt := Z.to_nat ntheta in let np := Z.to_nat azimuths_of in t < nt -> p < np ->
  let theta := (PI / 2 * (INR t / (INR nt - 1)))%R in let phi := (2 * PI * (INR p / (INR np - 1)))%R in let n := polar theta phi in
  (sum_3 (fun i => sum_3 (fun j => sum_3 (fun k => sum_3 (fun l => C_ijkl c i j k l * x i * n j * x k * n l)))) < 0)%R ->
  SeismicIsoProps.solves eigh (SeismicModel.christoffel (SeismicModel.Cmat c rho) (vector theta phi)) ->
  fst run_command = CliModel.Ok tt /\
  exists slow fast prim, CliModel.fs (snd run_command) out = CliModel.File (encode (SeismicTableModel.seismic_file punit slow fast prim)) /\
  (nth 2 (nth (t * np + p) slow []) 0 < 0)%R.
Proof.
  intros [T P] D nt np Ht Hp theta phi n Ng SO.
  destruct (mode_rows_at eigh pinv inv c Sm rho nt np 0 ltac:(lia) ltac:(lia)) as (slow & E0 & _ & V0).
  destruct (mode_rows_at eigh pinv inv c Sm rho nt np 1 ltac:(lia) ltac:(lia)) as (fast & E1 & _ & V1).
  destruct (mode_rows_at eigh pinv inv c Sm rho nt np 2 ltac:(lia) ltac:(lia)) as (prim & E2 & _ & V2).
  destruct (completes slow fast prim ltac:(lia) ltac:(lia)) as (v & E & S1 & _).
  { unfold tables, mode. fold nt np. rewrite E0, E1, E2. reflexivity. }
  rewrite E. cbn [fst snd]. split; [reflexivity|]. exists slow, fast, prim. split; [exact S1|].
  exact (negative_row eigh pinv inv c Sm rho theta phi x _ D SO Ng (V0 t p Ht Hp)).
Qed.

(** *** Runs without results *)
(** A single polar angle, or a single azimuth: a division by zero leaves the command
    after the input was reported. *)
Theorem C106_single_refuted : (1 <= ntheta)%Z -> (1 <= azimuths_of)%Z -> ntheta = 1%Z \/ azimuths_of = 1%Z ->
  fst run_command = CliModel.Raises "ZeroDivisionError" /\ forall q, q <> lf -> CliModel.fs (snd run_command) q = CliModel.fs w q.
Proof.
  intros T P One. destruct (reads_job _ _ _ _ _ H) as (E & B). destruct H as [[F D Z Y L N] R1 I O].
  pose proof (new_ok ltac:(nia)) as NW.
  assert (X : ntheta = 1%Z \/ azimuths_of = 1%Z -> Z.to_nat ntheta = 1 \/ Z.to_nat azimuths_of = 1) by lia.
  assert (TB : tables eigh pinv inv ntheta azimuths_of rho c Sm = QhaRunModel.Raises "ZeroDivisionError").
  { unfold tables, mode. rewrite (mode_rows_single eigh pinv inv c Sm rho (Z.to_nat ntheta) (Z.to_nat azimuths_of) 0 ltac:(lia) ltac:(lia) (X One)). reflexivity. }
  destruct (RunLogProps.C93_run_raises CitationsModel.seismic_texts command f o silent d calculator a w text (the_job name rho c Sm) "ZeroDivisionError") as (v & M & S1 & S2).
  - exact F.
  - exact L.
  - exact N.
  - cbn [CliModel.new seismic_calculator]. now rewrite NW.
  - exact E.
  - reflexivity.
  - cbn [CliModel.run seismic_job]. unfold seismic_run. rewrite TB. destruct (Z.ltb_spec ntheta 0); [lia|reflexivity].
  - rewrite main_is, M. split; [reflexivity|exact S2].
Qed.
(** No node at all: empty tables are saved and announced. *)
Theorem C106_empty_refuted : ntheta = 0%Z \/ (0 <= ntheta)%Z /\ azimuths_of = 0%Z ->
  fst run_command = CliModel.Ok tt /\
  CliModel.fs (snd run_command) out = CliModel.File (encode (SeismicTableModel.seismic_file punit [] [] [])).
Proof.
  intros Zr. assert (M0 : (ntheta * azimuths_of = 0)%Z) by (apply Z.mul_eq_0; destruct Zr as [E|[_ E]]; [left|right]; exact E).
  destruct (completes [] [] [] ltac:(lia) ltac:(lia)) as (v & E & S1 & _).
  { unfold tables, mode. rewrite !(mode_rows_none eigh pinv inv c Sm rho) by lia. reflexivity. }
  rewrite E. now split.
Qed.
(** Two negative numbers get as far as the run. *)
Theorem C106_negative : (ntheta < 0)%Z -> (azimuths_of < 0)%Z ->
  fst run_command = CliModel.Raises "ValueError" /\ forall q, q <> lf -> CliModel.fs (snd run_command) q = CliModel.fs w q.
Proof.
  intros T P. destruct (reads_job _ _ _ _ _ H) as (E & B). destruct H as [[F D Z Y L N] R1 I O].
  pose proof (new_ok ltac:(nia)) as NW.
  destruct (RunLogProps.C93_run_raises CitationsModel.seismic_texts command f o silent d calculator a w text (the_job name rho c Sm) "ValueError") as (v & M & S1 & S2).
  - exact F.
  - exact L.
  - exact N.
  - cbn [CliModel.new seismic_calculator]. now rewrite NW.
  - exact E.
  - reflexivity.
  - cbn [CliModel.run seismic_job]. unfold seismic_run. destruct (Z.ltb_spec ntheta 0); [reflexivity|lia].
  - rewrite main_is, M. split; [reflexivity|exact S2].
Qed.
End Run.

(** One negative number: the command ends before the file is read. *)
Theorem C106_not_started text : CliModel.fs w f = CliModel.File text -> CliModel.fs w lf <> CliModel.Dir -> lf <> f -> (ntheta * azimuths_of < 0)%Z ->
  fst run_command = CliModel.Raises "ValueError" /\
  CliModel.fs (snd run_command) lf = CliModel.File (RunLogProps.page ([""; CitationsModel.quantas_title; settings_text ntheta azimuths_of punit] ++ noted d ["Seismic calculator object instantiated"])) /\
  forall q, q <> lf -> CliModel.fs (snd run_command) q = CliModel.fs w q.
Proof.
  intros F L N T.
  assert (NW : seismic_new ntheta azimuths_of = (SoecCommandModel.hush ["Seismic calculator object instantiated"], CliModel.Raises "ValueError")).
  { unfold seismic_new. destruct (Z.ltb_spec (ntheta * azimuths_of) 0); [reflexivity|lia]. }
  destruct (RunLogProps.C93_not_started CitationsModel.seismic_texts command f o silent d calculator a w text "ValueError") as (v & M & S1 & S2).
  - exact F.
  - exact L.
  - exact N.
  - cbn [CliModel.new seismic_calculator]. now rewrite NW.
  - rewrite main_is, M. split; [reflexivity|]. split; [|exact S2]. cbn [snd]. rewrite S1. cbn [CliModel.new CliModel.settings CliModel.seismic_command seismic_calculator]. rewrite NW, settings_are. cbn [fst]. now rewrite hears_hush.
Qed.

(** A file which is refused leaves the reason at the end of the log, and no result:
    without a density (or with 0), with too few lines, with a word in place of a
    number. *)
Theorem C106_refused text lines : CliModel.fs w f = CliModel.File text -> CliModel.fs w lf <> CliModel.Dir -> lf <> f -> lines = readlines text -> (0 <= ntheta * azimuths_of)%Z ->
  let v := snd run_command in
  let refused reason := fst run_command = CliModel.Ok tt /\ (forall q, q <> lf -> CliModel.fs v q = CliModel.fs w q) /\
    exists before, CliModel.fs v lf = CliModel.File (RunLogProps.page (before ++ [reason])) in
  (forall name c, describes lines name c 0 -> sized c -> symmetric6 c -> refused "Density not provided, calculation aborted") /\
  (List.length lines < 6 -> refused "File length is too short to contain the SOEC matrix") /\
  (forall pre rows rest l t, lines = pre ++ rows ++ rest -> SoecIOProps.header pre rows -> List.length rows = 6 ->
    Forall (fun l => List.length (split l) <= 12) rows -> In l rows -> In t (split l) -> parse_float t = None ->
    refused "SOEC components should be float numbers").
Proof.
  intros F L N -> T v refused.
  assert (X : forall m, snd (CliModel.read_input calculator text) = CliModel.Ok (inl m) -> refused m).
  { intros m E.
    destruct (RunLogProps.C93_refused CitationsModel.seismic_texts command f o silent d calculator a w text m) as (v0 & M & S1 & S2).
    - exact F.
    - exact L.
    - exact N.
    - cbn [CliModel.new seismic_calculator]. now rewrite (new_ok T).
    - exact E.
    - unfold refused, v. rewrite main_is, M. cbn [fst snd]. split; [reflexivity|]. split; [exact S2|]. rewrite S1. rewrite !app_assoc. eexists. reflexivity. }
  assert (X' : forall d0 m, SoecIOModel.load (readlines text) SoecIOModel.class_data = (d0, SoecIOModel.Failed m) -> refused m).
  { intros d0 m E. apply X. cbn [CliModel.read_input seismic_calculator]. unfold seismic_read. rewrite E. reflexivity. }
  split; [|split].
  - intros name c D Z Y. destruct (described_load _ _ _ _ D Y Z) as (m & E & _). apply X.
    cbn [CliModel.read_input seismic_calculator]. unfold seismic_read. rewrite E. cbn [SoecIOModel.density]. unfold SeismicTableModel.is_zero.
    destruct (Req_EM_T 0 0) as [_|NZ]; [reflexivity|now elim NZ].
  - intros Sh. apply (X' SoecIOModel.class_data SoecIOModel.E_short). now apply SoecIOProps.C36_short.
  - intros pre rows rest l t E Hd Ln W Il It Pf. rewrite E in X'. eapply X'. eapply SoecIOProps.C36_non_numeric; eassumption.
Qed.
(** A singular matrix: the exception leaves the command; no result. *)
Theorem C106_singular text name c rho : readable text name c rho -> rho <> 0%R -> inverse c = None -> (0 <= ntheta * azimuths_of)%Z ->
  fst run_command = CliModel.Raises "ValueError" /\ forall q, q <> lf -> CliModel.fs (snd run_command) q = CliModel.fs w q.
Proof.
  intros [F D Z Y L N] R1 I T. destruct (described_load _ _ _ _ D Y Z) as (m & E & Nm).
  destruct (RunLogProps.C93_broken CitationsModel.seismic_texts command f o silent d calculator a w text "ValueError") as (v0 & M & S1 & S2).
  - exact F.
  - exact L.
  - exact N.
  - cbn [CliModel.new seismic_calculator]. now rewrite (new_ok T).
  - cbn [CliModel.read_input seismic_calculator]. unfold seismic_read. rewrite E. cbn [SoecIOModel.stiffness SoecIOModel.density]. rewrite (zero_not rho R1), Nm, I. reflexivity.
  - rewrite main_is, M. split; [reflexivity|exact S2].
Qed.
End Command.

(** Azimuths: a number is used as it is given, but 720 stands for four times the
    polar angles also when it was asked for. *)
Theorem C106_azimuths inverse eigh pinv inv time_line float_text encode nan_case ntheta nphi punit f o silent d a w :
  (nphi <> 720%Z -> azimuths_of ntheta nphi = nphi) /\
  azimuths_of ntheta 720 = (4 * ntheta)%Z /\
  (nphi = (4 * ntheta)%Z -> seismic_main inverse eigh pinv inv time_line float_text encode nan_case ntheta 720 punit f o silent d a w =
    seismic_main inverse eigh pinv inv time_line float_text encode nan_case ntheta nphi punit f o silent d a w).
Proof.
  assert (E : azimuths_of ntheta 720 = (4 * ntheta)%Z).
  { unfold azimuths_of. destruct (Z.eq_dec 720 720); [|congruence]. destruct (Z.eq_dec ntheta 180); lia. }
  split; [|split; [exact E|]].
  - intros N. unfold azimuths_of. now destruct (Z.eq_dec nphi 720).
  - intros ->. unfold seismic_main. rewrite !azimuths_are, E.
    replace (azimuths_of ntheta (4 * ntheta)) with (4 * ntheta)%Z; [reflexivity|].
    unfold azimuths_of. destruct (Z.eq_dec (4 * ntheta) 720), (Z.eq_dec ntheta 180); lia.
Qed.
Theorem C106_720_refuted : exists ntheta, ntheta <> 180%Z /\ azimuths_of ntheta 720 <> 720%Z.
Proof. exists 90%Z. split; [lia|]. discriminate. Qed.

(** Two files with the same moduli in the two forms give the same log and the same
    result file. *)
Theorem C106_forms_agree inverse eigh pinv inv time_line float_text encode nan_case ntheta nphi punit f o silent silent' d a a' w w' text text' name c rho Sm :
  ready inverse ntheta nphi punit f o a w text name c rho Sm -> ready inverse ntheta nphi punit f o a' w' text' name c rho Sm -> proper_sphere ntheta nphi ->
  let out := CliModel.outpath (CliModel.seismic_command "") f o in
  let run silent a w := seismic_main inverse eigh pinv inv time_line float_text encode nan_case ntheta nphi punit f o silent d a w in
  CliModel.fs (snd (run silent a w)) out = CliModel.fs (snd (run silent' a' w')) out /\
  CliModel.fs (snd (run silent a w)) (CliModel.logpath out) = CliModel.fs (snd (run silent' a' w')) (CliModel.logpath out).
Proof.
  intros H H' [T P] out run. unfold run.
  destruct (mode_rows_at eigh pinv inv c Sm rho (Z.to_nat ntheta) (Z.to_nat (azimuths_of ntheta nphi)) 0 ltac:(lia) ltac:(lia)) as (slow & E0 & _).
  destruct (mode_rows_at eigh pinv inv c Sm rho (Z.to_nat ntheta) (Z.to_nat (azimuths_of ntheta nphi)) 1 ltac:(lia) ltac:(lia)) as (fast & E1 & _).
  destruct (mode_rows_at eigh pinv inv c Sm rho (Z.to_nat ntheta) (Z.to_nat (azimuths_of ntheta nphi)) 2 ltac:(lia) ltac:(lia)) as (prim & E2 & _).
  assert (TB : tables eigh pinv inv ntheta (azimuths_of ntheta nphi) rho c Sm = QhaRunModel.Ok (slow, fast, prim)) by (unfold tables, mode; rewrite E0, E1, E2; reflexivity).
  destruct (completes inverse eigh pinv inv time_line float_text encode nan_case ntheta nphi punit f o silent d a w _ _ _ _ _ H slow fast prim ltac:(lia) ltac:(lia) TB) as (v & E & Sv & L & _).
  destruct (completes inverse eigh pinv inv time_line float_text encode nan_case ntheta nphi punit f o silent' d a' w' _ _ _ _ _ H' slow fast prim ltac:(lia) ltac:(lia) TB) as (v' & E' & Sv' & L' & _).
  rewrite E, E'. cbn [snd]. unfold out. change (CliModel.outpath (CliModel.seismic_command "") f o) with (CliModel.outpath (CliModel.seismic_command (print_settings ntheta (azimuths_of ntheta nphi) punit)) f o).
  rewrite Sv, Sv', L, L'. split; reflexivity.
Qed.

(** ** The glass of C94 and a crystal with a negative modulus, on two by two nodes *)
Definition axes (M : SeismicModel.mat3) : (nat -> R) * SeismicModel.mat3 := (fun i => M i i, fun i j => if i =? j then 1%R else 0%R).
Lemma axes_solve M : (forall i j, i < 3 -> j < 3 -> i <> j -> M i j = 0%R) -> SeismicIsoProps.solves axes M.
Proof.
  intros Z. unfold SeismicIsoProps.solves, axes. split.
  - intros i Hi. split.
    + intros k Hk. unfold SeismicProps.apply3, sum_3. destruct i as [|[|[|i]]]; [| | |lia]; destruct k as [|[|[|k]]]; try lia; cbn [Nat.eqb];
      rewrite ?(Z 0 1), ?(Z 0 2), ?(Z 1 0), ?(Z 1 2), ?(Z 2 0), ?(Z 2 1) by lia; ring.
    + unfold dot. destruct i as [|[|[|i]]]; [| | |lia]; cbn [Nat.eqb]; ring.
  - unfold orthonormal3, dot. cbn [Nat.eqb]. repeat split; ring.
Qed.
Lemma corners t p : t < 2 -> p < 2 ->
  let n := vector (PI / 2 * (INR t / (INR 2 - 1))) (2 * PI * (INR p / (INR 2 - 1))) in
  n 1 = 0%R /\ (t = 0 -> n 0 = 0%R /\ n 2 = 1%R) /\ (t = 1 -> n 0 = 1%R /\ n 2 = 0%R).
Proof.
  intros Ht Hp n.
  assert (C : cos (2 * PI * (INR p / (INR 2 - 1))) = 1%R /\ sin (2 * PI * (INR p / (INR 2 - 1))) = 0%R).
  { destruct p as [|[|p]]; [| |lia]; cbn [INR].
    - replace (2 * PI * (0 / (1 + 1 - 1)))%R with 0%R by field. now rewrite cos_0, sin_0.
    - replace (2 * PI * (1 / (1 + 1 - 1)))%R with (2 * PI)%R by field. now rewrite cos_2PI, sin_2PI. }
  destruct C as (C1 & C2).
  unfold n. rewrite !polar_vector by lia. unfold polar. rewrite C1, C2. split; [ring|].
  destruct t as [|[|t]]; [| |lia]; cbn [INR]; (split; intros Q; try discriminate Q).
  - replace (PI / 2 * (0 / (1 + 1 - 1)))%R with 0%R by field. rewrite cos_0, sin_0. split; [ring|reflexivity].
  - replace (PI / 2 * (1 / (1 + 1 - 1)))%R with (PI / 2)%R by field. rewrite cos_PI2, sin_PI2. split; [ring|reflexivity].
Qed.
Lemma corner_solves c rho t p : rho <> 0%R -> t < 2 -> p < 2 ->
  (forall i k, i < 3 -> k < 3 -> i <> k -> C_ijkl c i 0 k 0 = 0%R /\ C_ijkl c i 2 k 2 = 0%R) ->
  SeismicIsoProps.solves axes (SeismicModel.christoffel (SeismicModel.Cmat c rho) (vector (PI / 2 * (INR t / (INR 2 - 1))) (2 * PI * (INR p / (INR 2 - 1))))).
Proof.
  intros D Ht Hp Z. apply axes_solve. intros i k Hi Hk N. rewrite SeismicProps.christoffel_gamma by assumption.
  destruct (corners t p Ht Hp) as (N1 & A & B). destruct (Z i k Hi Hk N) as (Z0 & Z2). unfold SeismicProps.Gamma, sum_3. rewrite N1.
  destruct t as [|[|t]]; [| |lia].
  - destruct (A eq_refl) as (-> & ->). rewrite Z2. ring.
  - destruct (B eq_refl) as (-> & ->). rewrite Z0. ring.
Qed.
Notation settings22 text c Sm := (seismic_main (only c Sm) axes (fun A => A) (fun A => A) "Calculation time: 1.0 s" (fun _ => "2500.0") (fun h => "h5")
  (fun _ => ([], CliModel.Raises "")) 2 2 "GPa" "run/glass.dat" None true false (CliModel.Ok false) (disk text)).
Lemma glass_ready22 nt np text : describes (readlines text) "Glass" glass 2500 ->
  ready (only glass (isotropic_S 5 3)) nt np "GPa" "run/glass.dat" None (CliModel.Ok false) (disk text) text "Glass" glass 2500 (isotropic_S 5 3).
Proof.
  intros D. destruct glass_facts as (A & B & I & P & _). constructor; [constructor| | |].
  - reflexivity.
  - exact D.
  - exact B.
  - exact A.
  - vm_compute. discriminate.
  - vm_compute. discriminate.
  - lra.
  - unfold only. now destruct (Req_EM_T _ _).
  - left. reflexivity.
Qed.
Lemma glass_corners t p : t < 2 -> p < 2 ->
  SeismicIsoProps.solves axes (SeismicModel.christoffel (SeismicModel.Cmat glass 2500) (vector (PI / 2 * (INR t / (INR 2 - 1))) (2 * PI * (INR p / (INR 2 - 1))))).
Proof.
  intros Ht Hp. apply corner_solves; [lra|exact Ht|exact Hp|]. intros i k Hi Hk N. unfold C_ijkl, vm, glass.
  destruct i as [|[|[|i]]]; [| | |lia]; destruct k as [|[|[|k]]]; try lia; split; reflexivity.
Qed.
(** All the hypotheses above hold together: four rows; waves along the equator. *)
Example C106_instance :
  let run text := settings22 text glass (isotropic_S 5 3) in
  fst (run glass_upper) = CliModel.Ok tt /\ CliModel.fs (snd (run glass_upper)) "run/glass_SEISMIC.hdf5" = CliModel.File "h5" /\
  CliModel.fs (snd (run glass_upper)) "run/glass_SEISMIC.txt" = CliModel.fs (snd (run glass_full)) "run/glass_SEISMIC.txt" /\
  (exists slow fast prim u0 u1 u2 v0 v1 v2, List.length slow = 4 /\
    wave_row glass (isotropic_S 5 3) 2500 (PI / 2) 0 0 u0 v0 (nth 2 slow []) /\ wave_row glass (isotropic_S 5 3) 2500 (PI / 2) 0 1 u1 v1 (nth 2 fast []) /\
    wave_row glass (isotropic_S 5 3) 2500 (PI / 2) 0 2 u2 v2 (nth 2 prim []) /\ (2500 * v2 ^ 2 = 9000)%R /\ (2500 * v0 ^ 2 = 3000)%R).
Proof.
  intros run. destruct glass_described as (D1 & D2). pose proof (glass_ready22 2 2 _ D1) as R1. pose proof (glass_ready22 2 2 _ D2) as R2.
  destruct glass_facts as (Y & Z & I & P & E). assert (PS : proper_sphere 2 2) by (split; unfold azimuths_of; cbn; lia).
  destruct (C106_log _ axes (fun A => A) (fun A => A) "Calculation time: 1.0 s" (fun _ => "2500.0") (fun h => "h5") (fun _ => ([], CliModel.Raises ""))
    _ _ _ _ _ true false _ _ _ _ _ _ _ R1 PS) as (A & _).
  split; [exact A|].
  pose proof (C106_saved _ axes (fun A => A) (fun A => A) "Calculation time: 1.0 s" (fun _ => "2500.0") (fun h => "h5") (fun _ => ([], CliModel.Raises ""))
    _ _ _ _ _ true false _ _ _ _ _ _ _ R1 PS P I ltac:(lra)) as Q. cbv zeta in Q. change (Z.to_nat (azimuths_of 2 2)) with 2 in Q. change (Z.to_nat 2) with 2 in Q.
  destruct (Q glass_corners) as (slow & fast & prim & S1 & L & _ & _ & V).
  split; [exact S1|]. split.
  { exact (proj2 (C106_forms_agree _ axes (fun A => A) (fun A => A) "Calculation time: 1.0 s" (fun _ => "2500.0") (fun h => "h5") (fun _ => ([], CliModel.Raises ""))
      _ _ _ _ _ true true false _ _ _ _ _ _ _ _ _ _ R1 R2 PS)). }
  destruct (V 1 0 ltac:(lia) ltac:(lia)) as (u0 & u1 & u2 & v0 & v1 & v2 & W0 & W1 & W2 & O & Le).
  exists slow, fast, prim, u0, u1, u2, v0, v1, v2. cbn [INR] in W0, W1, W2.
  replace (PI / 2 * (1 / (1 + 1 - 1)))%R with (PI / 2)%R in W0, W1, W2 by field. replace (2 * PI * (0 / (1 + 1 - 1)))%R with 0%R in W0, W1, W2 by field.
  change (1 * 2 + 0) with 2 in W0, W1, W2. split; [exact L|]. split; [exact W0|]. split; [exact W1|]. split; [exact W2|].
  (* the three squares are 3000, 3000 and 9000 in some order, with orthogonal vectors *)
  assert (T : forall u v, travels glass 2500 (polar (PI / 2) 0) u v ->
    (9000 * u 0%nat = 2500 * v ^ 2 * u 0%nat /\ 3000 * u 1%nat = 2500 * v ^ 2 * u 1%nat /\ 3000 * u 2%nat = 2500 * v ^ 2 * u 2%nat)%R).
  { intros u v (_ & _ & X). pose proof (X 0 ltac:(lia)) as X0. pose proof (X 1 ltac:(lia)) as X1. pose proof (X 2 ltac:(lia)) as X2.
    unfold sum_3, C_ijkl, vm, polar in X0, X1, X2. rewrite cos_0, sin_0, cos_PI2, sin_PI2 in X0, X1, X2. unfold glass in X0, X1, X2. cbn [nth] in X0, X1, X2. repeat split; lra. }
  destruct W0 as (W0 & _). destruct W1 as (W1 & _). destruct W2 as (W2 & _).
  pose proof (T _ _ W0) as (A0 & A1 & A2). pose proof (T _ _ W1) as (B0 & B1 & B2). pose proof (T _ _ W2) as (C0 & C1 & C2).
  destruct W0 as (P0 & _). destruct W1 as (P1 & _). destruct W2 as (P2 & _).
  pose proof (columns_orthonormal _ _ _ O) as CO. pose proof (CO 0 0 ltac:(lia) ltac:(lia)) as K0. cbn in K0.
  destruct O as (O1 & O2 & O3 & O4 & O5 & O6). unfold dot in O1, O2, O3, O4, O5, O6.
  assert (Sq : forall u0 u1 u2 s : R, (u0 * u0 + u1 * u1 + u2 * u2 = 1 -> 9000 * u0 = s * u0 -> 3000 * u1 = s * u1 -> 3000 * u2 = s * u2 ->
    (s = 9000 /\ u1 = 0 /\ u2 = 0) \/ (s = 3000 /\ u0 = 0))%R).
  { intros a b c s N Ha Hb Hc. destruct (Req_dec a 0) as [Ea|Na].
    - right. split; [|exact Ea]. destruct (Req_dec b 0) as [Eb|Nb]; [|nra]. destruct (Req_dec c 0) as [Ec|Nc]; [|nra]. exfalso. subst. lra.
    - left. assert (s = 9000%R) by nra. subst. repeat split; nra. }
  assert (V0 : (v0 ^ 2 <= v1 ^ 2)%R) by (apply pow_incr; lra). assert (V1 : (v1 ^ 2 <= v2 ^ 2)%R) by (apply pow_incr; lra).
  destruct (Sq _ _ _ _ O1 A0 A1 A2) as [(X0 & Y0 & Z0)|(X0 & Y0)]; destruct (Sq _ _ _ _ O2 B0 B1 B2) as [(X1 & Y1 & Z1')|(X1 & Y1)];
  destruct (Sq _ _ _ _ O3 C0 C1 C2) as [(X2 & Y2 & Z2)|(X2 & Y2)]; try (split; lra); exfalso; try lra.
  - rewrite Y0, Z0 in O1, O4. rewrite Y1, Z1' in O2, O4. nra.
  - rewrite Y0, Y1, Y2 in K0. lra.
Qed.
(** The second crystal: along the first axis a shear wave has a negative energy. *)
Definition weak_dense : string := weak_upper +++ "1000" +++ nlc.
Lemma weak_ready22 : ready (only weak weak) 2 2 "GPa" "run/glass.dat" None (CliModel.Ok false) (disk weak_dense) weak_dense "Weak" weak 1000 weak.
Proof.
  constructor; [constructor| | |].
  - reflexivity.
  - exists (ended ["Weak"]), (ended ["1 0 0 0 0 0"; "1 0 0 0 0"; "1 0 0 0"; "1 0 0"; "1 0"; "-1"]), (ended ["1000"]). described "W"%char ltac:(idtac; right).
    split; [unfold SoecIOProps.density_of, ended; cbn [map]; change (split ("1000" +++ nlc)) with ["1000"]; cbv iota; number|reflexivity].
  - intros i j L. unfold weak. destruct (Nat.eqb_spec i j) as [->|]; [|reflexivity]. apply nth_overflow. cbn. lia.
  - intros p q _ _. unfold weak. rewrite (Nat.eqb_sym q p). destruct (Nat.eqb_spec p q) as [->|]; reflexivity.
  - vm_compute. discriminate.
  - vm_compute. discriminate.
  - lra.
  - unfold only. now destruct (Req_EM_T _ _).
  - left. reflexivity.
Qed.
Example C106_unstable_instance : let run := settings22 weak_dense weak weak in
  fst run = CliModel.Ok tt /\ exists slow : list (list R), (nth 2 (nth 2 slow []) 0 < 0)%R.
Proof.
  intros run. pose proof (C106_unstable_refuted _ axes (fun A => A) (fun A => A) "Calculation time: 1.0 s" (fun _ => "2500.0") (fun h => "h5") (fun _ => ([], CliModel.Raises ""))
    _ _ _ _ _ true false _ _ _ _ _ _ _ weak_ready22 1 0 (fun i => if i =? 1 then 1%R else 0%R)) as Q.
  cbv zeta in Q. change (Z.to_nat (azimuths_of 2 2)) with 2 in Q. change (Z.to_nat 2) with 2 in Q.
  destruct Q as (A & slow & fast & prim & _ & B).
  - split; unfold azimuths_of; cbn; lia.
  - lra.
  - lia.
  - lia.
  - destruct (corners 1 0 ltac:(lia) ltac:(lia)) as (N1 & _ & N0). destruct (N0 eq_refl) as (N0' & N2).
    unfold sum_3, C_ijkl, vm. rewrite <- !polar_vector by lia. rewrite N0', N1, N2. unfold weak. cbn [nth Nat.eqb]. lra.
  - apply corner_solves; [lra|lia|lia|]. intros i k Hi Hk N. unfold C_ijkl, vm, weak.
    destruct i as [|[|[|i]]]; [| | |lia]; destruct k as [|[|[|k]]]; try lia; split; reflexivity.
  - split; [exact A|]. exists slow. exact B.
Qed.
(** The runs without results. *)
Example C106_edges : let run inverse nt np text := fst (seismic_main inverse axes (fun A => A) (fun A => A) "Calculation time: 1.0 s" (fun _ => "2500.0") (fun h => "h5")
    (fun _ => ([], CliModel.Raises "")) nt np "GPa" "run/glass.dat" None true false (CliModel.Ok false) (disk text)) in
  let inv := only glass (isotropic_S 5 3) in
  run inv 1%Z 5%Z glass_upper = CliModel.Raises "ZeroDivisionError" /\ run inv 5%Z 1%Z glass_upper = CliModel.Raises "ZeroDivisionError" /\
  run inv 0%Z 7%Z glass_upper = CliModel.Ok tt /\ run inv (-1)%Z (-1)%Z glass_upper = CliModel.Raises "ValueError" /\
  run inv (-1)%Z 3%Z glass_upper = CliModel.Raises "ValueError" /\ run (fun _ => None) 2%Z 2%Z glass_upper = CliModel.Raises "ValueError" /\
  run inv 2%Z 2%Z weak_upper = CliModel.Ok tt.
Proof.
  intros run inv. destruct glass_described as (D1 & _). pose proof (fun nt np => glass_ready22 nt np _ D1) as H. unfold run, inv.
  split; [eapply C106_single_refuted; [apply H|lia|discriminate|left; reflexivity]|].
  split; [eapply C106_single_refuted; [apply H|lia|discriminate|right; reflexivity]|].
  split; [eapply C106_empty_refuted; [apply H|left; reflexivity]|].
  split; [eapply C106_negative; [apply H|lia|reflexivity]|].
  split.
  { apply (C106_not_started (only glass (isotropic_S 5 3)) axes (fun A => A) (fun A => A) "Calculation time: 1.0 s" (fun _ => "2500.0") (fun h => "h5") (fun _ => ([], CliModel.Raises ""))
      (-1) 3 "GPa" "run/glass.dat" None true false (CliModel.Ok false) (disk glass_upper) glass_upper); [reflexivity|vm_compute; discriminate|vm_compute; discriminate|reflexivity]. }
  split; [eapply C106_singular; [apply (is_readable _ _ _ _ _ _ _ _ _ _ _ _ _ (H 2%Z 2%Z))|lra|reflexivity|discriminate]|].
  destruct weak_ready as (W & _).
  destruct (C106_refused (only glass (isotropic_S 5 3)) axes (fun A => A) (fun A => A) "Calculation time: 1.0 s" (fun _ => "2500.0") (fun h => "h5") (fun _ => ([], CliModel.Raises ""))
      2 2 "GPa" "run/glass.dat" None true false (CliModel.Ok false) (disk weak_upper) weak_upper (readlines weak_upper)) as (Q & _);
    [reflexivity|vm_compute; discriminate|vm_compute; discriminate|reflexivity|discriminate|].
  destruct (Q "Weak" weak) as (A & _); [exact weak_described|apply W|apply W|exact A].
Qed.

Print Assumptions C106_log.
Print Assumptions C106_saved.
Print Assumptions C106_kept.
Print Assumptions C106_isotropic.
Print Assumptions C106_unstable_refuted.
Print Assumptions C106_single_refuted.
Print Assumptions C106_empty_refuted.
Print Assumptions C106_negative.
Print Assumptions C106_not_started.
Print Assumptions C106_refused.
Print Assumptions C106_singular.
Print Assumptions C106_azimuths.
Print Assumptions C106_720_refuted.
Print Assumptions C106_forms_agree.
