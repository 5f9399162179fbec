(** C94: `quantas soec FILE` from the text of the file to its log and result file. *)
From Coq Require Import Reals String Ascii List Bool Arith Lia Lra FunctionalExtensionality.
From Verif Require SoecIOModel SoecIOProps CliModel CliProofs CliProps CitationsModel RunLogProps SoecTableModel StoreModel.
From Verif Require Import Py DecimalModel DecimalProofs FormatModel FormatProofs TableModel SymmetryModel SymmetryProofs SymmetryProps
  TensorModel TensorProps AverageProps SoecRunModel SoecRunProps ReportModel ReportSpec ReportProofs SoecReportModel SoecReportProps SoecCommandModel.
Import ListNotations.
Open Scope string_scope.
Open Scope list_scope.
Open Scope nat_scope.

(** ** What the input file holds *)
(** Lines with a name, the 36 elastic moduli or the 21 of the upper triangle, and
    the density (0 when it is missing). *)
Definition describes (lines : list string) (name : string) (c : mat6) (rho : R) : Prop :=
  exists pre rows rest, lines = pre ++ rows ++ rest /\ SoecIOProps.header pre rows /\
  (Forall2 SoecIOProps.denotes rows (SoecIOProps.full_rows c) \/ Forall2 SoecIOProps.denotes rows (SoecIOProps.upper_rows c)) /\
  SoecIOProps.density_of rest (Num 0) = Some (Num rho) /\ name = SoecIOProps.title_of pre "Unknown".
(** Six rows and six columns. *)
Definition sized (c : mat6) : Prop := forall i j, 6 <= i \/ 6 <= j -> c i j = 0%R.
(** The crystal system with the most symmetry whose equalities hold within 0.001. *)
Definition crystal (c : mat6) (sys : system) : Prop := enforced sys c /\ forall s', rank s' < rank sys -> ~ enforced s' c.
(** ** The compliances which are used *)
Lemma prune_form M : orthorhombic_form (prune M).
Proof.
  split.
  - intros p q _ _. unfold prune. rewrite (andb_comm (q <? 3)), (Nat.eqb_sym q p), (Nat.min_comm q p), (Nat.max_comm q p).
    destruct ((p <? 3) && (q <? 3))%bool; [reflexivity|]. destruct (Nat.eqb_spec p q) as [->|]; reflexivity.
  - intros p q L T. unfold prune. replace (q <? 3) with false by (symmetry; apply Nat.ltb_ge; lia). rewrite andb_false_r.
    destruct (Nat.eqb_spec p q); [lia|reflexivity].
Qed.
Lemma methods_effective sys M :
  young_m sys M = young_f (effective sys M) /\ compressibility_m sys M = compressibility_f (effective sys M) /\
  shear_m sys M = shear_f (effective sys M) /\ poisson_m sys M = poisson_f (effective sys M).
Proof.
  destruct sys; try (repeat split; reflexivity). cbn [effective]. pose proof (prune_form M) as O.
  repeat split; apply functional_extensionality; intros x.
  - unfold young_f. rewrite <- (C32_young _ _ _ O). reflexivity.
  - unfold compressibility_f. rewrite <- (C32_linear_compressibility _ _ _ O). reflexivity.
  - unfold shear_f. rewrite <- (C32_shear _ _ _ _ O). reflexivity.
  - unfold poisson_f. rewrite <- (C32_poisson _ _ _ _ O). reflexivity.
Qed.

(** Which compliances the tables are computed from: those of the inverse, unless
    the matrix is taken as orthorhombic although couplings are not zero; then the
    small ones are left out. *)
Definition uncoupled (c : mat6) : Prop := forall p q, p < q < 6 -> 3 <= q -> c p q = 0%R.
Definition used (c Sm Se : mat6) : Prop :=
  (uncoupled c \/ ~ crystal c Orthorhombic) /\ Se = Sm \/
  crystal c Orthorhombic /\ forall p q, p < 6 -> q < 6 -> Se p q = if (p <? 3) && (q <? 3) || (p =? q) then Sm p q else 0%R.
Lemma uncoupled_inverse c Sm : symmetric6 c -> inverse6 c Sm -> uncoupled c -> orthorhombic_form Sm.
Proof.
  intros Y I U. pose proof (inverse_symmetric c Sm Y I) as YS. split; [exact YS|]. intros p q L T.
  assert (Z : forall k, k < 6 -> k <> q -> c k q = 0%R).
  { intros k Hk N. destruct (Nat.lt_ge_cases k q); [apply U; lia|]. rewrite Y by lia. apply U; lia. }
  assert (X : forall r, r < 6 -> mul6 Sm c r q = (Sm r q * c q q)%R).
  { intros r _. unfold mul6. assert (Q : q = 3 \/ q = 4 \/ q = 5) by lia.
    destruct Q as [->|[->| ->]]; rewrite ?(Z 0), ?(Z 1), ?(Z 2), ?(Z 3), ?(Z 4), ?(Z 5) by lia; ring. }
  destruct (I p q ltac:(lia) ltac:(lia)) as (_ & E). destruct (I q q ltac:(lia) ltac:(lia)) as (_ & E').
  rewrite X in E, E' by lia. unfold delta in *. rewrite Nat.eqb_refl in E'. destruct (Nat.eqb_spec p q); [lia|].
  apply Rmult_integral in E as [E|E]; [exact E|]. rewrite E, Rmult_0_r in E'. lra.
Qed.
Lemma one_system c sys sys' : symmetric6 c -> crystal c sys -> crystal c sys' -> sys = sys'.
Proof. intros Y K K'. apply (C26_first_match c _ Y) in K. apply (C26_first_match c _ Y) in K'. congruence. Qed.
Lemma prune_entries Sm Se : symmetric6 Sm -> (forall p q, p < 6 -> q < 6 -> Se p q = if (p <? 3) && (q <? 3) || (p =? q) then Sm p q else 0%R) ->
  forall p q, p < 6 -> q < 6 -> prune Sm p q = Se p q.
Proof.
  intros Y E p q Hp Hq. rewrite E by assumption. unfold prune. destruct ((p <? 3) && (q <? 3))%bool eqn:B; cbn [orb].
  - destruct (Nat.le_ge_cases p q) as [L|L]; [now rewrite Nat.min_l, Nat.max_r|]. rewrite Nat.min_r, Nat.max_l by assumption. now apply Y.
  - destruct (Nat.eqb_spec p q) as [->|]; reflexivity.
Qed.
Lemma S_ijkl_entries A B : (forall p q, p < 6 -> q < 6 -> A p q = B p q) -> forall i j k l, i < 3 -> j < 3 -> k < 3 -> l < 3 -> S_ijkl A i j k l = S_ijkl B i j k l.
Proof.
  intros E i j k l Hi Hj Hk Hl. unfold S_ijkl, vm.
  destruct i as [|[|[|i]]]; [| | |lia]; destruct j as [|[|[|j]]]; [| | |lia| | | |lia| | | |lia];
  destruct k as [|[|[|k]]]; try lia; destruct l as [|[|[|l]]]; try lia; cbn [nth]; rewrite E by lia; reflexivity.
Qed.
Lemma methods_entries A B : (forall p q, p < 6 -> q < 6 -> A p q = B p q) ->
  young_f A = young_f B /\ compressibility_f A = compressibility_f B /\ shear_f A = shear_f B /\ poisson_f A = poisson_f B.
Proof.
  intros E. pose proof (S_ijkl_entries A B E) as X.
  assert (L1 : forall u, loop_aaaa (S_ijkl A) u = loop_aaaa (S_ijkl B) u) by (intros; unfold loop_aaaa, sum3; rewrite !X by lia; reflexivity).
  assert (L2 : forall u, loop_aakk (S_ijkl A) u = loop_aakk (S_ijkl B) u) by (intros; unfold loop_aakk, sum3; rewrite !X by lia; reflexivity).
  assert (L3 : forall u v, loop_abab (S_ijkl A) u v = loop_abab (S_ijkl B) u v) by (intros; unfold loop_abab, sum3; rewrite !X by lia; reflexivity).
  assert (L4 : forall u v, loop_aabb (S_ijkl A) u v = loop_aabb (S_ijkl B) u v) by (intros; unfold loop_aabb, sum3; rewrite !X by lia; reflexivity).
  repeat split; apply functional_extensionality; intros x.
  - unfold young_f, young_modulus. now rewrite L1.
  - unfold compressibility_f, linear_compressibility. now rewrite L2.
  - unfold shear_f, shear_modulus. now rewrite L3.
  - unfold poisson_f, poisson_ratio. now rewrite L1, L4.
Qed.
Lemma methods_used c Sm Se sys : symmetric6 c -> inverse6 c Sm -> crystal c sys -> used c Sm Se ->
  young_m sys Sm = young_f Se /\ compressibility_m sys Sm = compressibility_f Se /\ shear_m sys Sm = shear_f Se /\ poisson_m sys Sm = poisson_f Se.
Proof.
  intros Y I K [([U|N] & ->)|(K' & E)].
  - destruct sys; try (repeat split; reflexivity). pose proof (uncoupled_inverse c Sm Y I U) as O.
    repeat split; apply functional_extensionality; intros x.
    + apply (C32_young _ _ _ O). + apply (C32_linear_compressibility _ _ _ O). + apply (C32_shear _ _ _ _ O). + apply (C32_poisson _ _ _ _ O).
  - destruct sys; try (repeat split; reflexivity). contradiction.
  - rewrite (one_system c _ _ Y K K'). destruct (methods_effective Orthorhombic Sm) as (-> & -> & -> & ->). cbn [effective].
    apply methods_entries, prune_entries; [exact (inverse_symmetric c Sm Y I)|exact E].
Qed.
Lemma effective_used c Sm Se sys : symmetric6 c -> inverse6 c Sm -> crystal c sys -> used c Sm Se ->
  forall p q, p < 6 -> q < 6 -> effective sys Sm p q = Se p q.
Proof.
  intros Y I K [([U|N] & ->)|(K' & E)] p q Hp Hq.
  - destruct sys; try reflexivity. cbn [effective]. pose proof (uncoupled_inverse c Sm Y I U) as (O & Z).
    apply (prune_entries Sm Sm O); [|assumption|assumption]. intros i j Hi Hj.
    destruct (Nat.ltb_spec i 3), (Nat.ltb_spec j 3), (Nat.eqb_spec i j); cbn [andb orb]; try reflexivity.
    + apply Z; lia. + rewrite O by assumption. apply Z; lia.
    + destruct (Nat.lt_ge_cases i j); [apply Z; lia|]. rewrite O by assumption. apply Z; lia.
  - destruct sys; try reflexivity. contradiction.
  - rewrite (one_system c _ _ Y K K'). cbn [effective]. apply prune_entries; [exact (inverse_symmetric c Sm Y I)|exact E|exact Hp|exact Hq].
Qed.
Lemma eigenvalue_positive c x : positive_definite c -> eigenvalue c x -> (0 < x)%R.
Proof.
  intros P (u & N & E). pose proof (P u N) as Q. unfold energy in Q. rewrite !E in Q by lia.
  assert (Sq : (0 < u 0%nat * u 0%nat + u 1%nat * u 1%nat + u 2%nat * u 2%nat + u 3%nat * u 3%nat + u 4%nat * u 4%nat + u 5%nat * u 5%nat)%R).
  { destruct N as (p & Hp & Np). assert (Sp : (0 < u p * u p)%R) by (apply Rsqr_pos_lt in Np; exact Np).
    pose proof (Rle_0_sqr (u 0%nat)). pose proof (Rle_0_sqr (u 1%nat)). pose proof (Rle_0_sqr (u 2%nat)). pose proof (Rle_0_sqr (u 3%nat)). pose proof (Rle_0_sqr (u 4%nat)). pose proof (Rle_0_sqr (u 5%nat)).
    unfold Rsqr in *. destruct p as [|[|[|[|[|[|p]]]]]]; [lra|lra|lra|lra|lra|lra|lia]. }
  assert (Q' : (0 < x * (u 0%nat * u 0%nat + u 1%nat * u 1%nat + u 2%nat * u 2%nat + u 3%nat * u 3%nat + u 4%nat * u 4%nat + u 5%nat * u 5%nat))%R) by lra.
  destruct (Rlt_le_dec 0 x) as [L|L]; [exact L|]. exfalso. nra.
Qed.

(** ** Reading *)
Lemma numbers_read m c : sized c -> (forall i j, i < 6 -> j < 6 -> m i j = Num (c i j)) -> numbers m = Some c.
Proof.
  intros Z E. unfold numbers.
  replace (forallb _ (seq 0 6)) with true.
  - f_equal. apply functional_extensionality; intros i. apply functional_extensionality; intros j.
    destruct (Nat.ltb_spec i 6), (Nat.ltb_spec j 6); cbn [andb]; [now rewrite E| | |]; symmetry; apply Z; lia.
  - symmetry. apply forallb_forall. intros i I. apply forallb_forall. intros j J. apply in_seq in I, J. rewrite E by lia. reflexivity.
Qed.
Lemma described_load lines name c rho : describes lines name c rho -> symmetric6 c -> sized c ->
  exists m, SoecIOModel.load lines SoecIOModel.class_data =
    ({| SoecIOModel.job := name; SoecIOModel.stiffness := Some m; SoecIOModel.density := Num rho |}, SoecIOModel.Completed) /\ numbers m = Some c.
Proof.
  intros (pre & rows & rest & -> & H & [F|F] & D & ->) Y Z.
  - destruct (SoecIOProps.C35_full c pre rows rest SoecIOModel.class_data (Num rho) H F D Y) as (m & E & V).
    exists m. split; [exact E|]. now apply numbers_read.
  - destruct (SoecIOProps.C35_upper c pre rows rest SoecIOModel.class_data (Num rho) H F D) as (m & E & V).
    exists m. split; [exact E|]. apply numbers_read; [exact Z|]. intros i j I J. rewrite V by assumption. f_equal.
    destruct (Nat.le_ge_cases i j) as [L|L].
    + now rewrite Nat.min_l, Nat.max_r.
    + rewrite Nat.min_r, Nat.max_l by assumption. now apply Y.
Qed.

Section Command.
Variable inverse : mat6 -> option mat6.
Variable eigenvalues : mat6 -> list R.
Variable brute : (angles -> R) -> nat -> angles * R.
Variable powell : (R -> R) -> R.
Variable velocities : mat6 -> R -> angles -> list R.
Variables (time_line : string) (float_text : R -> string) (encode : h5 -> string).
Variable nan_case : SoecIOModel.data -> CliModel.method (string + CliModel.job).
Variables (punit : string) (pol plt mpl : bool) (f : string) (o : option string) (silent d : bool) (a : CliModel.result bool) (w : CliModel.world).
Notation command := (CliModel.soec_command (print_settings punit)).
Notation out := (CliModel.outpath command f o).
Notation lf := (CliModel.logpath out).
Notation options := {| polar := pol; plotting := plt; matplotlib := mpl; basename := CliModel.root out |}.
Notation run_command := (soec_main inverse eigenvalues brute powell velocities time_line float_text encode nan_case punit pol plt mpl f o silent d a w).
Notation the_job := (soec_job eigenvalues brute powell velocities time_line float_text encode punit options out).
Notation reads := (soec_read inverse eigenvalues brute powell velocities time_line float_text encode nan_case punit options f out).

Definition hears (events : list CliModel.event) : list string := RunLogProps.voices d events.
Lemma hears_app x y : hears (x ++ y) = hears x ++ hears y. Proof. apply RunLogProps.voices_app. Qed.
Lemma hears_say l : hears (say l) = l.
Proof. induction l as [|m l IH]; [reflexivity|]. change (hears (say (m :: l))) with (m :: hears (say l)). now rewrite IH. Qed.

(** Debug lines of a file which is accepted. *)
Definition accepted (sys : system) : list CliModel.event :=
  hush ["Instantiate file reader"; "Input file correctly read"; "Job name set"; "SOEC object instantiated"; "Crystal system: " +++ system_name sys] ++
  match sys with Orthorhombic => hush ["Switching to orthorombic SOEC object"] | _ => [] end.
Lemma reads_job text name c rho Sm : describes (readlines text) name c rho -> symmetric6 c -> sized c -> inverse c = Some Sm ->
  exists sys, crystal c sys /\ snd (reads text) = CliModel.Ok (inr (the_job name sys rho c Sm)) /\
  fst (reads text) = say ["Reading input file: " +++ f] ++ accepted sys.
Proof.
  intros D Y Z I. destruct (described_load _ _ _ _ D Y Z) as (m & E & N).
  destruct (C26_total c Y) as (sys & K). exists sys. unfold soec_read. rewrite E. cbn [SoecIOModel.stiffness SoecIOModel.density SoecIOModel.job]. rewrite N, I, K.
  split; [now apply C26_first_match|]. split; [reflexivity|]. rewrite <- !app_assoc. reflexivity.
Qed.

(** A run with a readable file and a place to write to. *)
Record ready (text name : string) (c : mat6) (rho : R) (Sm : mat6) : Prop := {
  input_file : CliModel.fs w f = CliModel.File text;
  input_text : describes (readlines text) name c rho;
  input_size : sized c;
  input_symmetric : symmetric6 c;
  compliances : inverse c = Some Sm;
  inverted : inverse6 c Sm;
  some_eigenvalue : eigenvalues c <> [];
  true_eigenvalues : forall x, In x (eigenvalues c) -> eigenvalue c x;
  log_free : CliModel.fs w lf <> CliModel.Dir;
  log_not_input : lf <> f;
  out_free : CliModel.fs w out = CliModel.Absent \/ CliModel.fs w out <> CliModel.Dir /\ a = CliModel.Ok true }.
(** The block of lines stands in the log. *)
Definition logged (v : CliModel.world) (block : list string) : Prop :=
  exists messages, CliModel.fs v lf = CliModel.File (RunLogProps.page messages) /\ contains messages block.

Section Run.
Variables (text name : string) (c : mat6) (rho : R) (Sm : mat6).
Variable H : ready text name c rho Sm.
Lemma not_gated : gate (eigenvalues c) = false.
Proof.
  destruct H. apply goes_on. destruct (eigenvalues c) as [|x l] eqn:E; [contradiction|]. exists x. split; [now left|].
  apply (eigenvalue_nonzero c Sm x inverted0). apply true_eigenvalues0. now left.
Qed.
Definition main_part (sys : system) : list string :=
  report_initial c Sm rho (eigenvalues c) ++ hears (hush [" - Calculation Young modulus and Linear Compressibility variation"]) ++
  report_single (vary brute (young_m sys Sm) 2) (vary brute (compressibility_m sys Sm) 2) ++
  hears (hush [" - Calculation shear modulus and Poisson ratio variation"]) ++
  report_dual (vary brute (shear_m sys Sm) 3) (vary brute (poisson_m sys Sm) 3) ++
  (if Rlt_dec 0 rho then hears (hush [" - Calculation wave velocities variation"]) ++
     report_seismic (vary brute (wave velocities rho c 2) 2) (vary brute (wave velocities rho c 0) 2) (vary brute (wave velocities rho c 1) 2) else []) ++
  (if pol then polar_lines rho else []) ++ [""; time_line] ++ report_plots options rho.
Lemma completes : exists sys v, crystal c sys /\ run_command = (CliModel.Ok tt, v) /\
  CliModel.fs v out = CliModel.File (encode (soec_stored eigenvalues powell velocities punit options sys rho c Sm)) /\
  CliModel.fs v lf = CliModel.File (RunLogProps.page (([""; CitationsModel.quantas_title; print_settings punit] ++ hears (fst (soec_new options))) ++
    ["Reading input file: " +++ f] ++ hears (accepted sys) ++
    report_input name (system_name sys) rho (float_text rho) c Sm ++
    (hears (hush ["Start SOEC analysis"; " - Calculation of VRH average values"] ++
       (if Rlt_dec 0 rho then hush [" - Calculation of VRH wave velocities"] else []) ++ hush [" - Calculation stiffness eigenvalues"]) ++ main_part sys) ++
    [""; "Calculated data exported to " +++ out] ++ RunLogProps.references CitationsModel.soec_texts)) /\
  forall q, q <> lf -> q <> out -> CliModel.fs v q = CliModel.fs w q.
Proof.
  pose proof not_gated as G. destruct H as [F D Z Y I _ _ _ L N O].
  destruct (reads_job text name c rho Sm D Y Z I) as (sys & K & E & B).
  destruct (RunLogProps.C93_completed CitationsModel.soec_texts command f o silent d
    (soec_calculator inverse eigenvalues brute powell velocities time_line float_text encode nan_case punit options f out) a w text (the_job name sys rho c Sm))
    as (v & M & S1 & S2 & S3).
  - right. right. left. reflexivity.
  - exact F.
  - exact L.
  - exact N.
  - reflexivity.
  - exact E.
  - reflexivity.
  - cbn [CliModel.run soec_job]. unfold soec_run. rewrite G. reflexivity.
  - intros X. discriminate X.
  - exact O.
  - exists sys, v. split; [exact K|]. split; [exact M|]. split; [exact S1|]. split; [|exact S3].
    rewrite S2. f_equal. f_equal. rewrite <- !app_assoc. apply f_equal2; [reflexivity|].
    unfold RunLogProps.told_by. cbn [CliModel.reports CliModel.new CliModel.read_input soec_calculator]. rewrite app_nil_r.
    fold (hears (fst (soec_new options))). fold (hears (fst (reads text))). rewrite B, hears_app, hears_say.
    rewrite <- !app_assoc. do 3 (apply f_equal2; [reflexivity|]).
    cbn [CliModel.report_input_data CliModel.run CliModel.exported soec_job fst]. fold (hears (say (report_input name (system_name sys) rho (float_text rho) c Sm))).
    rewrite hears_say. apply f_equal2; [reflexivity|].
    unfold soec_run. rewrite G. cbn [fst]. fold (hears (say [""; "Calculated data exported to " +++ out])). rewrite hears_say.
    match goal with |- RunLogProps.voices d ?x ++ _ = _ => fold (hears x) end.
    rewrite !hears_app, !hears_say, <- !app_assoc. unfold main_part.
    cbn [polar]. destruct (Rlt_dec 0 rho); destruct pol; rewrite ?hears_app, ?hears_say, <- ?app_assoc; reflexivity.
Qed.
Lemma in_log block : (forall sys, crystal c sys -> contains (report_input name (system_name sys) rho (float_text rho) c Sm) block \/ contains (main_part sys) block) ->
  logged (snd run_command) block.
Proof.
  intros B. destruct completes as (sys & v & K & E & _ & L & _). rewrite E. eexists. split; [exact L|].
  do 3 apply contains_skip. destruct (B sys K) as [X|X].
  - apply contains_left. exact X.
  - apply contains_skip, contains_left, contains_skip. exact X.
Qed.
End Run.
(** ** C94 *)
(** The input is told as it was read, with its inverse. *)
Theorem C94_input text name c rho Sm : ready text name c rho Sm ->
  let v := snd run_command in fst run_command = CliModel.Ok tt /\
  exists sys stiff compl, crystal c sys /\
  logged v ["Reading input file: " +++ f] /\
  logged v ["Elastic analysis of " +++ name; ""; "System is " +++ system_name sys] /\
  (rho <> 0%R -> logged v ["Density: " +++ float_text rho +++ " kg m^-3"]) /\
  (rho = 0%R -> logged v ["Density: not provided"]) /\
  logged v ("Stiffness matrix (values in GPa)" :: stiff) /\ matrix_rows 4 c stiff /\
  logged v ("Compliance tensor (values in TPa^-1)" :: compl) /\ matrix_rows 6 (fun i j => (1000 * Sm i j)%R) compl /\
  logged v ["Calculated data exported to " +++ out].
Proof.
  intros H v. destruct (completes _ _ _ _ _ H) as (sys & v0 & K & E & _ & L & _). unfold v. rewrite E. cbn [fst snd].
  split; [reflexivity|].
  destruct (C87_input name (system_name sys) rho (float_text rho) c Sm) as (stiff & compl & B1 & B2 & B3 & B4 & M1 & B5 & M2).
  exists sys, stiff, compl. split; [exact K|].
  assert (X : forall b, contains (report_input name (system_name sys) rho (float_text rho) c Sm) b -> logged v0 b).
  { intros b B. eexists. split; [exact L|]. do 3 apply contains_skip. apply contains_left. exact B. }
  split; [eexists; split; [exact L|]; apply contains_skip, contains_left; now exists [], []|].
  split; [apply X; unfold report_input; now eexists [_], _|].
  split; [intros N; now apply X, B2|]. split; [intros N; now apply X, B3|]. split; [now apply X|]. split; [exact M1|]. split; [now apply X|]. split; [exact M2|].
  eexists. split; [exact L|]. do 5 apply contains_skip. now exists [""], (RunLogProps.references CitationsModel.soec_texts).
Qed.
(** The averages, the velocities and the eigenvalues of a stable crystal. *)
Theorem C94_averages text name c rho Sm : ready text name c rho Sm -> positive_definite c ->
  let v := snd run_command in
  let KV := bulk_voigt c in let KR := bulk_reuss Sm in let GV := shear_voigt c in let GR := shear_reuss Sm in
  (exists names l1 l2 l3, logged v ("Average properties" :: names ++ [l1; l2; l3]) /\
    row5 "Voigt" KV GV l1 /\ row5 "Reuss" KR GR l2 /\ row5 "Hill" (mean KV KR) (mean GV GR) l3) /\
  (exists ls, logged v ("Eigenvalues of the stiffness matrix:" :: ls) /\
    Forall2 (fun i l => says l [Word (nth i ["lambda_1:"; "lambda_2:"; "lambda_3:"; "lambda_4:"; "lambda_5:"; "lambda_6:"] ""); Decimals 5 (nth i (eigenvalues c) 0%R)]) (seq 0 6) ls) /\
  Forall (fun x => 0 < x)%R (eigenvalues c) /\
  ((0 < rho)%R -> exists ls lp vs vp, logged v ["Average (VRH) wave velocities"; ls; lp] /\
    says ls [Word "-"; Word "Transversal"; Word "(Vs):"; Decimals 5 vs; Word "km/s"] /\
    says lp [Word "-"; Word "Longitudinal"; Word "(Vp):"; Decimals 5 vp; Word "km/s"] /\
    (0 < vs < vp)%R /\ (rho * vs ^ 2 = 1000 * mean GV GR)%R /\ (rho * (vp ^ 2 - 4 / 3 * vs ^ 2) = 1000 * mean KV KR)%R) /\
  ((rho <= 0)%R -> exists ls lp, logged v ["Average (VRH) wave velocities"; ls; lp] /\
    says ls (map Word ["-"; "Transversal"; "(Vs):"; "nan"; "km/s"]) /\ says lp (map Word ["-"; "Longitudinal"; "(Vp):"; "nan"; "km/s"])).
Proof.
  intros H Q v KV0 KR0 GV0 GR0. pose proof (input_symmetric _ _ _ _ _ H) as Y. pose proof (inverted _ _ _ _ _ H) as I.
  assert (X : forall b, contains (report_initial c Sm rho (eigenvalues c)) b -> logged v b).
  { intros b B. apply (in_log _ _ _ _ _ H). intros sys _. right. unfold main_part. apply contains_left. exact B. }
  split; [|split; [|split; [|split]]].
  - destruct (initial_averages rho c Sm (eigenvalues c) Y Q I) as (n & l1 & l2 & l3 & B & _ & A). exists n, l1, l2, l3. split; [now apply X|exact A].
  - destruct (initial_eigenvalues rho c Sm (eigenvalues c)) as (ls & B & A). exists ls. split; [now apply X|exact A].
  - apply Forall_forall. intros x Hx. apply (eigenvalue_positive c x Q). now apply (true_eigenvalues _ _ _ _ _ H).
  - intros D. destruct (initial_velocities rho c Sm (eigenvalues c) Y Q I D) as (ls & lp & vs & vp & B & A). exists ls, lp, vs, vp. split; [now apply X|exact A].
  - intros D. destruct (initial_no_density rho c Sm (eigenvalues c) D) as (ls & lp & B & A). exists ls, lp. split; [now apply X|exact A].
Qed.
(** The tables give the extreme values over all directions, with the directions
    where they are found. *)
Notation global := (global_search brute).
Theorem C94_moduli text name c rho Sm Se : ready text name c rho Sm -> used c Sm Se ->
  global (young_f Se) 2 -> global (fun x => (- young_f Se x)%R) 2 ->
  global (compressibility_f Se) 2 -> global (fun x => (- compressibility_f Se x)%R) 2 ->
  exists l0 head l1 values axes l2 E0 E1 b0 b1 rE rb u0 u1 w0 w1,
  logged (snd run_command)
    (["Variations of the elastic moduli:"; ""; l0; head; l1] ++ values ++ axes ++ [l2; "Notes: E min/max values in GPa, beta min/max values in TPa^-1"]) /\
  says head (map Word ["Young's"; "modulus"; "Linear"; "compressibility"]) /\
  values_rows ["E_min"; "E_max"; "beta_min"; "beta_max"] [E0; E1; b0; b1] [rE; rb] values /\
  axis_rows ["Axis"] [u0; u1; w0; w1] axes /\
  extremes (E_of Se) E0 E1 u0 u1 /\ ratio_is E0 E1 rE /\
  extremes (elongation Se) b0 b1 w0 w1 /\ ratio_is b0 b1 rb.
Proof.
  intros H U HE HE' HL HL'.
  destruct (single_moduli brute Se HE HE' HL HL') as (l0 & head & l1 & values & axes & l2 & E0 & E1 & b0 & b1 & rE & rb & u0 & u1 & w0 & w1 & B & X).
  exists l0, head, l1, values, axes, l2, E0, E1, b0, b1, rE, rb, u0, u1, w0, w1. split; [|exact X].
  apply (in_log _ _ _ _ _ H). intros sys K. right. unfold main_part.
  destruct (methods_used c Sm Se sys (input_symmetric _ _ _ _ _ H) (inverted _ _ _ _ _ H) K U) as (-> & -> & _).
  do 2 apply contains_skip. apply contains_left. exact B.
Qed.
Theorem C94_shear text name c rho Sm Se : ready text name c rho Sm -> used c Sm Se ->
  global (shear_f Se) 3 -> global (fun x => (- shear_f Se x)%R) 3 ->
  global (poisson_f Se) 3 -> global (fun x => (- poisson_f Se x)%R) 3 ->
  exists l0 head l1 values first l2 second l3 G0 G1 n0 n1 rG rn u0 u1 w0 w1,
  logged (snd run_command)
    ([l0; head; l1] ++ values ++ first ++ [l2] ++ second ++ [l3; "Notes: G min/max values in GPa"]) /\
  says head (map Word ["Shear"; "modulus"; "Poisson's"; "ratio"]) /\
  values_rows ["G_min"; "G_max"; "nu_min"; "nu_max"] [G0; G1; n0; n1] [rG; rn] values /\
  axis_rows ["1st"; "Axis"] [u0; u1; w0; w1] first /\
  axis_rows ["2nd"; "Axis"] [u0; u1; w0; w1] second /\
  pair_extremes (shear_of Se) G0 G1 u0 u1 /\ ratio_is G0 G1 rG /\
  pair_extremes (poisson_of Se) n0 n1 w0 w1 /\ ratio_is n0 n1 rn.
Proof.
  intros H U HE HE' HL HL'.
  destruct (dual_shear brute Se HE HE' HL HL') as (l0 & head & l1 & values & first & l2 & second & l3 & G0 & G1 & n0 & n1 & rG & rn & u0 & u1 & w0 & w1 & B & X).
  exists l0, head, l1, values, first, l2, second, l3, G0, G1, n0, n1, rG, rn, u0, u1, w0, w1. split; [|exact X].
  apply (in_log _ _ _ _ _ H). intros sys K. right. unfold main_part.
  destruct (methods_used c Sm Se sys (input_symmetric _ _ _ _ _ H) (inverted _ _ _ _ _ H) K U) as (_ & _ & -> & ->).
  do 4 apply contains_skip. apply contains_left. exact B.
Qed.
Theorem C94_waves text name c rho Sm : ready text name c rho Sm -> (0 < rho)%R ->
  (forall k, k < 3 -> global (fun x => nth k (velocities c rho x) 0%R) 2 /\ global (fun x => (- nth k (velocities c rho x) 0)%R) 2) ->
  exists l0 head l1 values axes l2 a0 a1 b0 b1 c0 c1 ra rb rc ua ua' ub ub' uc uc',
  logged (snd run_command)
    (["Variations of the seismic velocities:"; ""; l0; head; l1] ++ values ++ axes ++ [l2; "Notes: min/max values in km s^-1"]) /\
  says head (map Word ["V_s1"; "V_s2"; "V_p"]) /\
  values_rows ["min"; "max"; "min"; "max"; "min"; "max"] [a0; a1; b0; b1; c0; c1] [ra; rb; rc] values /\
  axis_rows ["Axis"] [ua; ua'; ub; ub'; uc; uc'] axes /\
  wave_extremes (velocities c rho) 0 a0 a1 ua ua' /\ ratio_is a0 a1 ra /\
  wave_extremes (velocities c rho) 1 b0 b1 ub ub' /\ ratio_is b0 b1 rb /\
  wave_extremes (velocities c rho) 2 c0 c1 uc uc' /\ ratio_is c0 c1 rc.
Proof.
  intros H D G.
  destruct (seismic_waves brute (velocities c rho) G) as (l0 & head & l1 & values & axes & l2 & a0 & a1 & b0 & b1 & c0 & c1 & ra & rb & rc & ua & ua' & ub & ub' & uc & uc' & B & X).
  exists l0, head, l1, values, axes, l2, a0, a1, b0, b1, c0, c1, ra, rb, rc, ua, ua', ub, ub', uc, uc'. split; [|exact X].
  apply (in_log _ _ _ _ _ H). intros sys K. right. unfold main_part. destruct (Rlt_dec 0 rho) as [_|N]; [|contradiction].
  do 5 apply contains_skip. apply contains_left. apply contains_skip. exact B.
Qed.
(** The result file holds the same numbers. *)
Definition holds (m : list (list R)) (M : mat6) : Prop :=
  List.length m = 6 /\ forall i j, i < 6 -> j < 6 -> nth j (nth i m []) 0%R = M i j.
Theorem C94_saved text name c rho Sm : ready text name c rho Sm -> positive_definite c ->
  let v := snd run_command in
  let KV := bulk_voigt c in let KR := bulk_reuss Sm in let GV := shear_voigt c in let GR := shear_reuss Sm in
  let line K G := [K; young_textbook K G; G; poisson_textbook K G] in
  (exists h m m', CliModel.fs v out = CliModel.File (encode h) /\ info h <> None /\
    find "stiffness" (datasets h) = Some {| values := Mat m; unit_of := punit |} /\ holds m c /\
    find "compliance" (datasets h) = Some {| values := Mat m'; unit_of := "TPa^-1" |} /\ holds m' Sm /\
    find "averages" (datasets h) = Some {| values := Mat [line KV GV; line KR GR; line (mean KV KR) (mean GV GR)]; unit_of := punit |} /\
    find "eigenvals" (datasets h) = Some {| values := Vec (eigenvalues c); unit_of := punit |}) /\
  forall q, q <> lf -> q <> out -> CliModel.fs v q = CliModel.fs w q.
Proof.
  intros H P v KV0 KR0 GV0 GR0 ln. pose proof (input_symmetric _ _ _ _ _ H) as Y. pose proof (inverted _ _ _ _ _ H) as I.
  destruct (completes _ _ _ _ _ H) as (sys & v0 & K & E & Sv & _ & Fr). unfold v. rewrite E. cbn [snd]. split; [|exact Fr].
  destruct (voigt_reuss c Sm) as (E1 & E2 & E3 & E4).
  pose proof (C29_bulk_order c Sm Y P I) as (K0 & K1 & K2). pose proof (C29_shear_order c Sm Y P I) as (G0 & G1 & G2).
  do 3 eexists. split; [exact Sv|]. split; [discriminate|]. split; [reflexivity|].
  assert (X : forall M, holds (map (fun i => map (M i) (seq 0 6)) (seq 0 6)) M).
  { intros M. split; [reflexivity|]. intros i j Hi Hj. destruct i as [|[|[|[|[|[|i]]]]]]; [| | | | | |lia]; destruct j as [|[|[|[|[|[|j]]]]]]; try lia; reflexivity. }
  split; [apply X|]. split; [reflexivity|]. split; [apply X|]. split; [|reflexivity].
  cbn [find soec_stored datasets app String.eqb Ascii.eqb Bool.eqb]. f_equal. f_equal. f_equal. unfold averages, ln.
  rewrite (proj1 (C29_rows (KV c) (GV c) ltac:(lra) ltac:(lra))), (proj1 (C29_rows (KR Sm) (GR Sm) ltac:(lra) ltac:(lra))), (proj1 (C29_rows (KH c Sm) (GH c Sm) ltac:(lra) ltac:(lra))).
  replace (KH c Sm) with (mean (KV c) (KR Sm)) by (unfold KH, mean; lra). replace (GH c Sm) with (mean (GV c) (GR Sm)) by (unfold GH, mean; lra).
  unfold KV0, KR0, GV0, GR0. rewrite E1, E2, E3, E4. reflexivity.
Qed.
(** With --polar: the values on the three planes, every 360/359 of a degree. *)
Theorem C94_polar text name c rho Sm Se pl : ready text name c rho Sm -> used c Sm Se -> pol = true ->
  let angle i := (360 / 359 * INR i)%R in
  exists h mE mL, CliModel.fs (snd run_command) out = CliModel.File (encode h) /\
  find ("polar_E_" +++ SoecTableModel.plane_name pl) (datasets h) = Some {| values := Mat mE; unit_of := punit |} /\
  find ("polar_LC_" +++ SoecTableModel.plane_name pl) (datasets h) = Some {| values := Mat mL; unit_of := "TPa^-1" |} /\
  List.length mE = 360 /\ List.length mL = 360 /\
  forall i, i < 360 ->
    nth i mE [] = [angle i; E_of Se (cut_direction pl (angle i))] /\
    exists x y, nth i mL [] = [angle i; x; y] /\ (0 <= x)%R /\ (0 <= y)%R /\ (x * y = 0)%R /\ (x - y = elongation Se (cut_direction pl (angle i)))%R.
Proof.
  intros H U Q angle. destruct (completes _ _ _ _ _ H) as (sys & v0 & K & E & Sv & _ & _). rewrite E. cbn [snd].
  pose proof (effective_used c Sm Se sys (input_symmetric _ _ _ _ _ H) (inverted _ _ _ _ _ H) K U) as EN.
  pose proof (S_ijkl_entries _ _ EN) as T.
  exists (soec_stored eigenvalues powell velocities punit options sys rho c Sm), (table (row_E (effective sys Sm) pl nrad)), (table (row_LC (effective sys Sm) pl nrad)).
  split; [exact Sv|].
  assert (F : find ("polar_E_" +++ SoecTableModel.plane_name pl) (datasets (soec_stored eigenvalues powell velocities punit options sys rho c Sm)) =
      Some {| values := Mat (table (row_E (effective sys Sm) pl nrad)); unit_of := punit |} /\
    find ("polar_LC_" +++ SoecTableModel.plane_name pl) (datasets (soec_stored eigenvalues powell velocities punit options sys rho c Sm)) =
      Some {| values := Mat (table (row_LC (effective sys Sm) pl nrad)); unit_of := "TPa^-1" |}).
  { unfold soec_stored. rewrite Q. cbn [polar datasets map List.concat]. unfold SoecTableModel.plane_datasets, SoecTableModel.plane_tables.
    set (tE := fun pl => table (row_E (effective sys Sm) pl nrad)). set (tL := fun pl => table (row_LC (effective sys Sm) pl nrad)).
    change (table (row_E (effective sys Sm) pl nrad)) with (tE pl). change (table (row_LC (effective sys Sm) pl nrad)) with (tL pl).
    change (table (row_E (effective sys Sm) XY nrad)) with (tE XY). change (table (row_LC (effective sys Sm) XY nrad)) with (tL XY).
    change (table (row_E (effective sys Sm) XZ nrad)) with (tE XZ). change (table (row_LC (effective sys Sm) XZ nrad)) with (tL XZ).
    change (table (row_E (effective sys Sm) YZ nrad)) with (tE YZ). change (table (row_LC (effective sys Sm) YZ nrad)) with (tL YZ).
    clearbody tE tL. destruct (Rlt_dec 0 rho), pl; cbn [map app fst snd SoecTableModel.plane_name];
    repeat match goal with |- context [table ?r] => generalize (table r); intro end; split; reflexivity. }
  destruct F as (F1 & F2). split; [exact F1|]. split; [exact F2|].
  split; [apply (proj1 (proj2 (C68_sampling _ 0 ltac:(lia))))|]. split; [apply (proj1 (proj2 (C68_sampling _ 0 ltac:(lia))))|].
  intros i Hi. destruct (C68_sampling (row_E (effective sys Sm) pl nrad) i Hi) as (-> & _ & A). destruct (C68_sampling (row_LC (effective sys Sm) pl nrad) i Hi) as (-> & _ & _).
  fold (angle i) in A. split.
  - destruct (C68_young_rows (effective sys Sm) pl nrad i) as (deg & x & R1 & R2). unfold row_E in R1. rewrite A in R1. injection R1 as <- R1.
    unfold row_E. rewrite A, R1, R2. f_equal. f_equal. unfold E_of, loop_aaaa, sum3. rewrite !T by lia. reflexivity.
  - destruct (C68_compressibility_rows (effective sys Sm) pl nrad i) as (deg & x & y & R1 & R2 & R3 & R4 & R5). exists x, y.
    assert (D : deg = angle i) by (unfold row_LC in R1; rewrite A in R1; now injection R1). rewrite R1, D. split; [reflexivity|]. split; [exact R2|]. split; [exact R3|].
    split; [exact R4|]. rewrite R5, D, elongation_is. unfold loop_aakk, sum3. rewrite !T by lia. reflexivity.
Qed.
(** A file which is refused leaves the reason at the end of the log, and no result. *)
Theorem C94_refused text lines : CliModel.fs w f = CliModel.File text -> CliModel.fs w lf <> CliModel.Dir -> lf <> f -> lines = readlines text ->
  let v := snd run_command in
  (List.length lines < 6 ->
    fst run_command = CliModel.Ok tt /\ (forall q, q <> lf -> CliModel.fs v q = CliModel.fs w q) /\
    exists before, CliModel.fs v lf = CliModel.File (RunLogProps.page (before ++ ["File length is too short to contain the SOEC matrix"]))) /\
  (forall pre rows rest l t, lines = pre ++ rows ++ rest -> SoecIOProps.header pre rows -> List.length rows = 6 ->
    Forall (fun l => List.length (split l) <= 12) rows -> In l rows -> In t (split l) -> parse_float t = None ->
    fst run_command = CliModel.Ok tt /\ (forall q, q <> lf -> CliModel.fs v q = CliModel.fs w q) /\
    exists before, CliModel.fs v lf = CliModel.File (RunLogProps.page (before ++ ["SOEC components should be float numbers"]))).
Proof.
  intros F L N -> v.
  assert (X : forall d0 m, SoecIOModel.load (readlines text) SoecIOModel.class_data = (d0, SoecIOModel.Failed m) ->
    fst run_command = CliModel.Ok tt /\ (forall q, q <> lf -> CliModel.fs v q = CliModel.fs w q) /\
    exists before, CliModel.fs v lf = CliModel.File (RunLogProps.page (before ++ [m]))).
  { intros d0 m E.
    destruct (RunLogProps.C93_refused CitationsModel.soec_texts command f o silent d
      (soec_calculator inverse eigenvalues brute powell velocities time_line float_text encode nan_case punit options f out) a w text m) as (v0 & M & S1 & S2).
    - exact F.
    - exact L.
    - exact N.
    - reflexivity.
    - cbn [CliModel.read_input soec_calculator]. unfold soec_read. rewrite E. reflexivity.
    - unfold v, soec_main. cbv zeta. rewrite M. cbn [fst snd]. split; [reflexivity|]. split; [exact S2|]. rewrite S1. rewrite !app_assoc. eexists. reflexivity. }
  split.
  - intros Sh. apply (X SoecIOModel.class_data SoecIOModel.E_short). now apply SoecIOProps.C36_short.
  - intros pre rows rest l t E Hd Ln W Il It Pf. rewrite E in X. eapply X. eapply SoecIOProps.C36_non_numeric; eassumption.
Qed.
(** A singular matrix: the exception leaves the command; no result. *)
Theorem C94_singular text name c rho : CliModel.fs w f = CliModel.File text -> CliModel.fs w lf <> CliModel.Dir -> lf <> f ->
  describes (readlines text) name c rho -> symmetric6 c -> sized c -> inverse c = None ->
  fst run_command = CliModel.Raises "ValueError" /\ forall q, q <> lf -> CliModel.fs (snd run_command) q = CliModel.fs w q.
Proof.
  intros F L N D Y Z I. destruct (described_load _ _ _ _ D Y Z) as (m & E & Nm).
  destruct (RunLogProps.C93_broken CitationsModel.soec_texts command f o silent d
    (soec_calculator inverse eigenvalues brute powell velocities time_line float_text encode nan_case punit options f out) a w text "ValueError") as (v0 & M & S1 & S2).
  - exact F.
  - exact L.
  - exact N.
  - reflexivity.
  - cbn [CliModel.read_input soec_calculator]. unfold soec_read. rewrite E. cbn [SoecIOModel.stiffness SoecIOModel.density]. rewrite Nm, I. reflexivity.
  - unfold soec_main. cbv zeta. rewrite M. cbn [fst snd]. split; [reflexivity|exact S2].
Qed.
(** An unstable crystal is analysed, saved and announced like a stable one. *)
Theorem C94_unstable_refuted text name c rho Sm : ready text name c rho Sm -> ~ positive_definite c ->
  fst run_command = CliModel.Ok tt /\ logged (snd run_command) ["Calculated data exported to " +++ out] /\
  exists h, CliModel.fs (snd run_command) out = CliModel.File (encode h).
Proof.
  intros H _. destruct (C94_input _ _ _ _ _ H) as (A & sys & stiff & compl & B). split; [exact A|]. split; [apply B|].
  destruct (completes _ _ _ _ _ H) as (sys' & v0 & K & E & Sv & _). rewrite E. eexists. exact Sv.
Qed.
End Command.

(** Two files with the same moduli in the two forms give the same log and the same
    result file. *)
Theorem C94_forms_agree inverse eigenvalues brute powell velocities time_line float_text encode nan_case punit pol plt mpl f o silent silent' d a a' w w' text text' name c rho Sm :
  ready inverse eigenvalues punit f o a w text name c rho Sm -> ready inverse eigenvalues punit f o a' w' text' name c rho Sm ->
  let c0 := CliModel.soec_command (print_settings punit) in let out := CliModel.outpath c0 f o in
  let run silent a w := soec_main inverse eigenvalues brute powell velocities time_line float_text encode nan_case punit pol plt mpl f o silent d a w in
  CliModel.fs (snd (run silent a w)) out = CliModel.fs (snd (run silent' a' w')) out /\
  CliModel.fs (snd (run silent a w)) (CliModel.logpath out) = CliModel.fs (snd (run silent' a' w')) (CliModel.logpath out).
Proof.
  intros H H' c0 out run. pose proof (input_symmetric _ _ _ _ _ _ _ _ _ _ _ _ H) as Y. unfold run.
  destruct (completes _ _ brute powell velocities time_line float_text encode nan_case punit pol plt mpl f o silent d a w _ _ _ _ _ H) as (sys & v & K & E & Sv & L & _).
  destruct (completes _ _ brute powell velocities time_line float_text encode nan_case punit pol plt mpl f o silent' d a' w' _ _ _ _ _ H') as (sys' & v' & K' & E' & Sv' & L' & _).
  rewrite E, E'. cbn [snd]. fold c0 out in Sv, Sv', L, L'. rewrite Sv, Sv', L, L'. rewrite (one_system c sys' sys Y K' K). split; reflexivity.
Qed.

(** ** A glass with bulk modulus 5 and shear modulus 3, in both forms, and a matrix
    with a negative modulus. *)
Definition nlc : string := String newline "".
Definition glass_upper : string :=
  "Glass" +++ nlc +++ "9 3 3 0 0 0" +++ nlc +++ "9 3 0 0 0" +++ nlc +++ "9 0 0 0" +++ nlc +++ "3 0 0" +++ nlc +++ "3 0" +++ nlc +++ "3" +++ nlc +++ "2500" +++ nlc.
Definition glass_full : string :=
  "Glass" +++ nlc +++ "9 3 3 0 0 0" +++ nlc +++ "3 9 3 0 0 0" +++ nlc +++ "3 3 9 0 0 0" +++ nlc +++ "0 0 0 3 0 0" +++ nlc +++ "0 0 0 0 3 0" +++ nlc +++
  "0 0 0 0 0 3" +++ nlc +++ "2500" +++ nlc.
Definition weak_upper : string :=
  "Weak" +++ nlc +++ "1 0 0 0 0 0" +++ nlc +++ "1 0 0 0 0" +++ nlc +++ "1 0 0 0" +++ nlc +++ "1 0 0" +++ nlc +++ "1 0" +++ nlc +++ "-1" +++ nlc.
Definition glass : mat6 := fun i j =>
  nth j (nth i [[9; 3; 3; 0; 0; 0]; [3; 9; 3; 0; 0; 0]; [3; 3; 9; 0; 0; 0]; [0; 0; 0; 3; 0; 0]; [0; 0; 0; 0; 3; 0]; [0; 0; 0; 0; 0; 3]]%R []) 0%R.
Definition weak : mat6 := fun i j => if i =? j then nth i [1; 1; 1; 1; 1; -1]%R 0%R else 0%R.
Definition disk (text : string) : CliModel.world :=
  {| CliModel.fs := fun q => if String.eqb q "run/glass.dat" then CliModel.File text else CliModel.Absent; CliModel.screen := [] |}.
Definition only (c Sm M : mat6) : option mat6 := if Req_EM_T (M 0 0) (c 0 0) then Some Sm else None.
Ltac number :=
  match goal with |- parse_float ?t = _ =>
    let r := eval cbv -[literal] in (parse_float t) in change (parse_float t) with r end;
  apply SoecIOProps.lit;
  match goal with |- context [Z.of_N ?x] => let r := eval vm_compute in (Z.of_N x) in change (Z.of_N x) with r end;
  match goal with |- context [powerRZ 10 ?x] => let r := eval vm_compute in x in change x with r end;
  unfold glass, weak; cbn; lra.
Ltac numbers_of := 
    repeat (apply Forall2_cons; [unfold SoecIOProps.denotes;
      match goal with |- Forall2 _ (split ?l) _ => let s := eval vm_compute in (split l) in change (split l) with s end;
      repeat (apply Forall2_cons; [number|]); apply Forall2_nil|]); apply Forall2_nil.
Definition ended (l : list string) : list string := map (fun x => x +++ nlc) l.
Ltac described t form :=
  split; [vm_compute; reflexivity|];
  split; [left; eexists; split; [reflexivity|]; exists t; split; reflexivity|];
  split; [form; cbv [SoecIOProps.upper_rows SoecIOProps.full_rows SoecIOModel.six seq List.map Nat.sub]; unfold ended; cbn [map]; numbers_of|].
Lemma glass_described : describes (readlines glass_upper) "Glass" glass 2500 /\ describes (readlines glass_full) "Glass" glass 2500.
Proof.
  split.
  - exists (ended ["Glass"]), (ended ["9 3 3 0 0 0"; "9 3 0 0 0"; "9 0 0 0"; "3 0 0"; "3 0"; "3"]), (ended ["2500"]). described "G"%char ltac:(idtac; right).
    split; [unfold SoecIOProps.density_of, ended; cbn [map]; change (split ("2500" +++ nlc)) with ["2500"]; cbv iota; number|reflexivity].
  - exists (ended ["Glass"]), (ended ["9 3 3 0 0 0"; "3 9 3 0 0 0"; "3 3 9 0 0 0"; "0 0 0 3 0 0"; "0 0 0 0 3 0"; "0 0 0 0 0 3"]), (ended ["2500"]). described "G"%char ltac:(idtac; left).
    split; [unfold SoecIOProps.density_of, ended; cbn [map]; change (split ("2500" +++ nlc)) with ["2500"]; cbv iota; number|reflexivity].
Qed.
Lemma weak_described : describes (readlines weak_upper) "Weak" weak 0.
Proof.
  exists (ended ["Weak"]), (ended ["1 0 0 0 0 0"; "1 0 0 0 0"; "1 0 0 0"; "1 0 0"; "1 0"; "-1"]), []. described "W"%char ltac:(idtac; right).
  split; reflexivity.
Qed.
Lemma glass_facts : symmetric6 glass /\ sized glass /\ inverse6 glass (isotropic_S 5 3) /\ positive_definite glass /\
  (forall p q, p < 6 -> q < 6 -> glass p q = isotropic_C 5 3 p q).
Proof.
  assert (E : forall p q, p < 6 -> q < 6 -> glass p q = isotropic_C 5 3 p q).
  { intros p q Hp Hq. destruct p as [|[|[|[|[|[|p]]]]]]; [| | | | | |lia]; destruct q as [|[|[|[|[|[|q]]]]]]; try lia; cbn; lra. }
  assert (I : inverse6 glass (isotropic_S 5 3)).
  { intros p r Hp Hr. split; unfold mul6; destruct p as [|[|[|[|[|[|p]]]]]]; try lia; destruct r as [|[|[|[|[|[|r]]]]]]; try lia;
    unfold glass, isotropic_S, young_textbook, poisson_textbook, delta; cbn [nth Nat.eqb]; field. }
  split; [|split; [|split; [exact I|split; [|exact E]]]].
  - intros p q Hp Hq. destruct p as [|[|[|[|[|[|p]]]]]]; try lia; destruct q as [|[|[|[|[|[|q]]]]]]; try lia; reflexivity.
  - intros i j L. unfold glass. destruct L as [L|L].
    + rewrite (nth_overflow _ [] (n := i)) by exact L. now destruct j.
    + destruct j as [|[|[|[|[|[|j]]]]]]; try lia. destruct i as [|[|[|[|[|[|i]]]]]]; cbn [nth]; [| | | | | |destruct i]; now destruct j.
  - intros u (p & Hp & Np). unfold energy, apply6. rewrite !E by lia. cbn [isotropic_C].
    assert (Sp : (0 < u p * u p)%R) by (apply Rsqr_pos_lt in Np; exact Np).
    pose proof (Rle_0_sqr (u 0)) as A0. pose proof (Rle_0_sqr (u 1)) as A1. pose proof (Rle_0_sqr (u 2)) as A2.
    pose proof (Rle_0_sqr (u 3)) as A3. pose proof (Rle_0_sqr (u 4)) as A4. pose proof (Rle_0_sqr (u 5)) as A5.
    pose proof (Rle_0_sqr (u 0%nat + u 1%nat + u 2%nat)%R) as A6. unfold Rsqr in *.
    destruct p as [|[|[|[|[|[|p]]]]]]; [nra|nra|nra|nra|nra|nra|lia].
Qed.
Lemma glass_eigenvalues x : In x [3; 3; 3; 6; 6; 15]%R -> eigenvalue glass x.
Proof.
  intros H. assert (X : x = 3%R \/ x = 6%R \/ x = 15%R) by (cbn in H; lra). destruct X as [->|[->| ->]].
  - exists (fun p => if p =? 3 then 1%R else 0%R). split; [exists 3; split; [lia|cbn; lra]|]. intros p Hp.
    destruct p as [|[|[|[|[|[|p]]]]]]; try lia; unfold apply6, glass; cbn [nth Nat.eqb]; ring.
  - exists (fun p => if p =? 0 then 1%R else if p =? 1 then (-1)%R else 0%R). split; [exists 0; split; [lia|cbn; lra]|]. intros p Hp.
    destruct p as [|[|[|[|[|[|p]]]]]]; try lia; unfold apply6, glass; cbn [nth Nat.eqb]; ring.
  - exists (fun p => if p <? 3 then 1%R else 0%R). split; [exists 0; split; [lia|cbn; lra]|]. intros p Hp.
    destruct p as [|[|[|[|[|[|p]]]]]]; try lia; unfold apply6, glass; cbn [nth Nat.ltb Nat.leb]; ring.
Qed.
Lemma glass_ready text : describes (readlines text) "Glass" glass 2500 ->
  ready (only glass (isotropic_S 5 3)) (fun _ => [3; 3; 3; 6; 6; 15]%R) "GPa" "run/glass.dat" None (CliModel.Ok false) (disk text) text "Glass" glass 2500 (isotropic_S 5 3).
Proof.
  intros D. destruct glass_facts as (A & B & I & P & _). constructor; try assumption.
  - reflexivity.
  - unfold only. now destruct (Req_EM_T _ _).
  - discriminate.
  - apply glass_eigenvalues.
  - vm_compute. discriminate.
  - vm_compute. discriminate.
  - left. reflexivity.
Qed.
Lemma weak_ready : ready (only weak weak) (fun _ => [-1; 1; 1; 1; 1; 1]%R) "GPa" "run/glass.dat" None (CliModel.Ok false) (disk weak_upper) weak_upper "Weak" weak 0 weak /\
  ~ positive_definite weak.
Proof.
  split.
  - constructor.
    + reflexivity.
    + exact weak_described.
    + intros i j L. unfold weak. destruct (Nat.eqb_spec i j) as [->|]; [|reflexivity]. apply nth_overflow. cbn. lia.
    + intros p q _ _. unfold weak. rewrite (Nat.eqb_sym q p). destruct (Nat.eqb_spec p q) as [->|]; reflexivity.
    + unfold only. now destruct (Req_EM_T _ _).
    + intros p r Hp Hr. split; unfold mul6; destruct p as [|[|[|[|[|[|p]]]]]]; try lia; destruct r as [|[|[|[|[|[|r]]]]]]; try lia;
      unfold weak, delta; cbn [nth Nat.eqb]; ring.
    + discriminate.
    + intros x Hx. assert (X : x = 1%R \/ x = (-1)%R) by (cbn in Hx; lra). destruct X as [->| ->].
      * exists (fun p => if p =? 0 then 1%R else 0%R). split; [exists 0; split; [lia|cbn; lra]|]. intros p Hp.
        destruct p as [|[|[|[|[|[|p]]]]]]; try lia; unfold apply6, weak; cbn [nth Nat.eqb]; ring.
      * exists (fun p => if p =? 5 then 1%R else 0%R). split; [exists 5; split; [lia|cbn; lra]|]. intros p Hp.
        destruct p as [|[|[|[|[|[|p]]]]]]; try lia; unfold apply6, weak; cbn [nth Nat.eqb]; ring.
    + vm_compute. discriminate.
    + vm_compute. discriminate.
    + left. reflexivity.
  - intros P. specialize (P (fun p => if p =? 5 then 1%R else 0%R)). assert (N : nonzero6 (fun p => if p =? 5 then 1%R else 0%R)) by (exists 5; split; [lia|cbn; lra]).
    specialize (P N). unfold energy, apply6, weak in P. cbn [nth Nat.eqb] in P. lra.
Qed.
(** All the hypotheses above hold together; the glass has one value of each modulus. *)
Example C94_instance :
  let run := soec_main (only glass (isotropic_S 5 3)) (fun _ => [3; 3; 3; 6; 6; 15]%R) search_origin (fun g => g (PI / 2)%R) (fun _ _ _ => [2; 2; 4]%R)
    "Calculation time: 1.0 s" (fun _ => "2500.0") (fun h => "h5") (fun _ => ([], CliModel.Raises "")) "GPa" true false true "run/glass.dat" None true false (CliModel.Ok false) in
  let logged := logged "GPa" "run/glass.dat" None in
  let v := snd (run (disk glass_upper)) in
  fst (run (disk glass_upper)) = CliModel.Ok tt /\
  logged v ["Elastic analysis of Glass"; ""; "System is cubic"] /\ logged v ["Density: 2500.0 kg m^-3"] /\
  CliModel.fs v "run/glass_SOEC.hdf5" = CliModel.File "h5" /\
  CliModel.fs v "run/glass_SOEC.txt" = CliModel.fs (snd (run (disk glass_full))) "run/glass_SOEC.txt" /\
  exists values E0 E1 b0 b1 rE rb, values_rows ["E_min"; "E_max"; "beta_min"; "beta_max"] [E0; E1; b0; b1] [rE; rb] values /\ E0 = E1 /\ E0 = young_textbook 5 3.
Proof.
  intros run lg v. destruct glass_described as (D1 & D2). pose proof (glass_ready _ D1) as R1. pose proof (glass_ready _ D2) as R2.
  destruct glass_facts as (Y & Z & I & P & E).
  pose proof (C94_input _ _ search_origin (fun g => g (PI / 2)%R) (fun _ _ _ => [2; 2; 4]%R) "Calculation time: 1.0 s" (fun _ => "2500.0") (fun h => "h5") (fun _ => ([], CliModel.Raises ""))
    _ true false true _ _ true false _ _ _ _ _ _ _ R1) as (A & sys & stiff & compl & K & _ & B1 & B2 & _).
  assert (KC : crystal glass Cubic).
  { split; [|intros s' L; destruct s'; cbn in L; lia]. unfold enforced, all_negligible, orthotropic_zeros, negligible, approx, C, glass.
    cbn [fst snd Nat.sub nth]. repeat split; repeat apply Forall_cons; try apply Forall_nil; cbn [fst snd Nat.sub nth]; unfold Rabs; destruct (Rcase_abs _); lra. }
  rewrite (one_system glass sys Cubic Y K KC) in B1.
  split; [exact A|]. split; [exact B1|]. split; [apply B2; lra|].
  destruct (C94_saved _ _ search_origin (fun g => g (PI / 2)%R) (fun _ _ _ => [2; 2; 4]%R) "Calculation time: 1.0 s" (fun _ => "2500.0") (fun h => "h5") (fun _ => ([], CliModel.Raises ""))
    _ true false true _ _ true false _ _ _ _ _ _ _ R1 P) as ((h & _ & _ & S1 & _) & _).
  split; [exact S1|]. split.
  { apply (C94_forms_agree _ _ search_origin (fun g => g (PI / 2)%R) (fun _ _ _ => [2; 2; 4]%R) "Calculation time: 1.0 s" (fun _ => "2500.0") (fun h => "h5") (fun _ => ([], CliModel.Raises ""))
      _ true false true _ _ true true false _ _ _ _ _ _ _ _ _ _ R1 R2). }
  pose proof (fun t p c => C29_isotropic 5 3 glass (isotropic_S 5 3) t p c ltac:(lra) ltac:(lra) E I) as ISO.
  assert (const : forall (f : angles -> R) c d, (forall x, f x = c) -> global_search search_origin f d /\ global_search search_origin (fun x => (- f x)%R) d).
  { intros g c d F. split; (split; [reflexivity|]; split; [apply repeat_length|]; intros x _; cbn [search_origin snd fst]; rewrite !F; lra). }
  assert (U : used glass (isotropic_S 5 3) (isotropic_S 5 3)).
  { left. split; [|reflexivity]. right. intros K'. discriminate (one_system glass _ _ Y K' KC). }
  destruct (const (young_f (isotropic_S 5 3)) (young_textbook 5 3) 2 ltac:(intros x; apply (ISO (ang x 0) (ang x 1) 0%R))) as (H1 & H2).
  destruct (const (compressibility_f (isotropic_S 5 3)) (1000 / (3 * 5))%R 2 ltac:(intros x; apply (ISO (ang x 0) (ang x 1) 0%R))) as (H3 & H4).
  destruct (C94_moduli _ _ search_origin (fun g => g (PI / 2)%R) (fun _ _ _ => [2; 2; 4]%R) "Calculation time: 1.0 s" (fun _ => "2500.0") (fun h => "h5") (fun _ => ([], CliModel.Raises ""))
    _ true false true _ _ true false _ _ _ _ _ _ _ _ R1 U H1 H2 H3 H4) as (l0 & head & l1 & values & axes & l2 & E0 & E1 & b0 & b1 & rE & rb & u0 & u1 & w0 & w1 & _ & _ & V & _ & XE & _).
  exists values, E0, E1, b0, b1, rE, rb. split; [exact V|].
  destruct (squeeze (E_of (isotropic_S 5 3)) (young_textbook 5 3) E0 E1 u0 u1) as (-> & ->); [|exact XE|now split].
  intros u Hu. destruct (C30_half_ranges_suffice u Hu) as (t & p & _ & _ & W). destruct (ISO t p 0%R) as (_ & _ & _ & _ & _ & _ & Q & _). rewrite <- Q.
  unfold young_modulus, E_of. f_equal. destruct W as [(U1 & U2 & U3)|(U1 & U2 & U3)]; unfold loop_aaaa, sum3; rewrite U1, U2, U3; ring.
Qed.

Print Assumptions C94_input.
Print Assumptions C94_averages.
Print Assumptions C94_moduli.
Print Assumptions C94_shear.
Print Assumptions C94_waves.
Print Assumptions C94_saved.
Print Assumptions C94_polar.
Print Assumptions C94_refused.
Print Assumptions C94_singular.
Print Assumptions C94_unstable_refuted.
Print Assumptions C94_forms_agree.
