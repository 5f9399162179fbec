(** C101, elastic: from the output of an ab initio code, through
    `quantas inpgen soec` and the file it writes, to `quantas soec`. *)
From Coq Require Import Reals String Ascii List Bool Arith ZArith NArith Lia Lra FunctionalExtensionality.
From Flocq Require Import Core.
From Verif Require CliModel CliProofs RunLogProps SoecIOModel SoecIOProps SoecInterfaceModel SoecInterfaceProps SoecInpgenModel SoecInpgenProps StoreModel ChainOtherProps.
From Verif Require Import ReportSpec TableModel Py DecimalModel DecimalProofs FormatModel FormatProofs SymmetryModel SymmetryProofs SymmetryProps TensorModel TensorProps AverageProps SoecReportModel SoecReportProps
  SoecRunModel SoecRunProps SoecCommandModel SoecCommandProps.
Import ListNotations.
Open Scope string_scope.
Open Scope list_scope.
Open Scope nat_scope.

(** ** Two matrices which agree within half a unit of the fourth decimal *)
Definition alike (c x : mat6) : Prop := forall i j, i < 6 -> j < 6 -> (Rabs (c i j - x i j) <= 5e-5)%R.
(** The Voigt averages agree as well. *)
Lemma alike_bulk c x : alike c x -> (Rabs (bulk_voigt c - bulk_voigt x) <= 5e-5)%R.
Proof.
  intros A. unfold bulk_voigt, nine, sum_3.
  pose proof (A 0 0 ltac:(lia) ltac:(lia)) as A0. pose proof (A 1 1 ltac:(lia) ltac:(lia)) as A1. pose proof (A 2 2 ltac:(lia) ltac:(lia)) as A2.
  pose proof (A 0 1 ltac:(lia) ltac:(lia)) as A3. pose proof (A 0 2 ltac:(lia) ltac:(lia)) as A4. pose proof (A 1 2 ltac:(lia) ltac:(lia)) as A5.
  pose proof (A 1 0 ltac:(lia) ltac:(lia)) as A6. pose proof (A 2 0 ltac:(lia) ltac:(lia)) as A7. pose proof (A 2 1 ltac:(lia) ltac:(lia)) as A8.
  apply Rabs_le_inv in A0, A1, A2, A3, A4, A5, A6, A7, A8. apply Rabs_le. split; lra.
Qed.
Lemma alike_shear c x : alike c x -> (Rabs (shear_voigt c - shear_voigt x) <= 5e-5)%R.
Proof.
  intros A. unfold shear_voigt, trace3, off3, shears.
  pose proof (A 0 0 ltac:(lia) ltac:(lia)) as A0. pose proof (A 1 1 ltac:(lia) ltac:(lia)) as A1. pose proof (A 2 2 ltac:(lia) ltac:(lia)) as A2.
  pose proof (A 0 1 ltac:(lia) ltac:(lia)) as A3. pose proof (A 0 2 ltac:(lia) ltac:(lia)) as A4. pose proof (A 1 2 ltac:(lia) ltac:(lia)) as A5.
  pose proof (A 3 3 ltac:(lia) ltac:(lia)) as A6. pose proof (A 4 4 ltac:(lia) ltac:(lia)) as A7. pose proof (A 5 5 ltac:(lia) ltac:(lia)) as A8.
  apply Rabs_le_inv in A0, A1, A2, A3, A4, A5, A6, A7, A8. apply Rabs_le. split; lra.
Qed.
(** Stability is kept when the softest strain costs more than 3e-4 GPa. *)
Definition length2 (e : nat -> R) : R := (e 0%nat * e 0%nat + e 1%nat * e 1%nat + e 2%nat * e 2%nat + e 3%nat * e 3%nat + e 4%nat * e 4%nat + e 5%nat * e 5%nat)%R.
Definition stable_by (margin : R) (x : mat6) : Prop := forall e, (margin * length2 e <= energy x e)%R.
Lemma term_bound d a b : (Rabs d <= 5e-5 -> - (5e-5 / 2) * (a * a + b * b) <= a * (d * b))%R.
Proof.
  intros D. apply Rabs_le_inv in D. destruct D as (D1 & D2). pose proof (Rle_0_sqr (a - b)%R) as P1. pose proof (Rle_0_sqr (a + b)%R) as P2. unfold Rsqr in *.
  assert (X : (0 <= (5e-5 - d) * ((a - b) * (a - b)))%R) by (apply Rmult_le_pos; lra).
  assert (X' : (0 <= (5e-5 + d) * ((a + b) * (a + b)))%R) by (apply Rmult_le_pos; lra). lra.
Qed.
Lemma alike_stable c x margin : alike c x -> stable_by margin x -> stable_by (margin - 3e-4) c.
Proof.
  intros A B e. specialize (B e). unfold length2, energy, apply6 in *.
  assert (T : forall i j, i < 6 -> j < 6 -> (- (5e-5 / 2) * (e i * e i + e j * e j) <= e i * ((c i j - x i j) * e j))%R) by (intros; apply term_bound, A; assumption).
  assert (U : forall i, i < 6 -> (- (5e-5 / 2) * (6 * (e i * e i) + (e 0%nat * e 0%nat + e 1%nat * e 1%nat + e 2%nat * e 2%nat + e 3%nat * e 3%nat + e 4%nat * e 4%nat + e 5%nat * e 5%nat)) <=
    e i * (c i 0%nat * e 0%nat + c i 1%nat * e 1%nat + c i 2%nat * e 2%nat + c i 3%nat * e 3%nat + c i 4%nat * e 4%nat + c i 5%nat * e 5%nat) -
    e i * (x i 0%nat * e 0%nat + x i 1%nat * e 1%nat + x i 2%nat * e 2%nat + x i 3%nat * e 3%nat + x i 4%nat * e 4%nat + x i 5%nat * e 5%nat))%R).
  { intros i Hi. pose proof (T i 0 Hi ltac:(lia)). pose proof (T i 1 Hi ltac:(lia)). pose proof (T i 2 Hi ltac:(lia)).
    pose proof (T i 3 Hi ltac:(lia)). pose proof (T i 4 Hi ltac:(lia)). pose proof (T i 5 Hi ltac:(lia)). lra. }
  pose proof (U 0 ltac:(lia)). pose proof (U 1 ltac:(lia)). pose proof (U 2 ltac:(lia)). pose proof (U 3 ltac:(lia)). pose proof (U 4 ltac:(lia)). pose proof (U 5 ltac:(lia)). lra.
Qed.
Lemma stable_positive x margin : (0 < margin)%R -> stable_by margin x -> positive_definite x.
Proof.
  intros M B e (p & Hp & N). specialize (B e). apply Rsqr_pos_lt in N. unfold Rsqr in N.
  assert (L : (0 < length2 e)%R).
  { unfold length2. pose proof (Rle_0_sqr (e 0)). pose proof (Rle_0_sqr (e 1)). pose proof (Rle_0_sqr (e 2)).
    pose proof (Rle_0_sqr (e 3)). pose proof (Rle_0_sqr (e 4)). pose proof (Rle_0_sqr (e 5)). unfold Rsqr in *.
    destruct p as [|[|[|[|[|[|p]]]]]]; [lra|lra|lra|lra|lra|lra|lia]. }
  assert (0 < margin * length2 e)%R by (apply Rmult_lt_0_compat; assumption). lra.
Qed.

Section Elastic.
Variable t : CliModel.texts.
Variable round_abs : nat -> R -> N.
Hypothesis round_near : forall k x, (Rabs (IZR (Z.of_N (round_abs k x)) - Rabs x * 10 ^ k) <= 1 / 2)%R.
Variable is_text : string -> bool.
Notation inpgen := (SoecInpgenModel.soec_inpgen t round_abs is_text).
Notation input_path := SoecInpgenModel.input_path.
Notation job_of := SoecInpgenProps.job_of.
(** The moduli as the file has them. *)
Definition kept (x : mat6) : mat6 := fun i j => if (i <? 6) && (j <? 6) then SoecIOProps.rounded round_abs 4 (x i j) else 0%R.
Definition kept_density (rho : R) : R := SoecIOProps.rounded round_abs 1 rho.

Lemma kept_sized x : sized (kept x).
Proof. intros i j L. unfold kept. destruct (Nat.ltb_spec i 6), (Nat.ltb_spec j 6); cbn [andb]; try reflexivity. lia. Qed.
Lemma kept_symmetric x : symmetric6 x -> symmetric6 (kept x).
Proof. intros Y p q Hp Hq. unfold kept. rewrite (andb_comm (q <? 6)), (Y p q Hp Hq). reflexivity. Qed.
Lemma kept_alike x : alike (kept x) x.
Proof.
  intros i j Hi Hj. unfold kept. destruct (Nat.ltb_spec i 6); [|lia]. destruct (Nat.ltb_spec j 6); [|lia]. cbn [andb].
  pose proof (SoecIOProps.rounded_near round_abs round_near 4 (x i j)) as Q. simpl in Q. lra.
Qed.
Lemma kept_density_near rho : (Rabs (kept_density rho - rho) <= 5e-2)%R.
Proof. pose proof (SoecIOProps.rounded_near round_abs round_near 1 rho) as Q. simpl in Q. unfold kept_density. lra. Qed.
Lemma written_described title x rho : no_newline title -> SoecIOProps.titled title ->
  describes (readlines (SoecIOModel.write round_abs title x rho)) (rstrip title) (kept x) (kept_density rho).
Proof.
  intros T (a & Ha & Da). rewrite (SoecIOProps.written_lines round_abs title x rho T).
  eexists [_], _, [_]. split; [reflexivity|]. split; [|split; [left|split]].
  - left. eexists. split; [reflexivity|]. exists a. split; [|exact Da]. unfold SoecIOProps.first_char in *. now rewrite SoecIOProps.strip_newline.
  - change (SoecIOProps.full_rows (kept x)) with (SoecIOProps.full_rows (fun i j => SoecIOProps.rounded round_abs 4 (x i j))).
    unfold SoecIOProps.full_rows. apply SoecIOProps.Forall2_maps. intros i. unfold SoecIOProps.denotes. rewrite (SoecIOProps.split_row _ _ _ SoecIOProps.newline_blank).
    apply SoecIOProps.Forall2_maps. intros j. apply (print_parse _ 4 _ ltac:(lia)).
  - unfold SoecIOProps.density_of. destruct (SoecIOProps.density_shape round_abs rho) as (k & ->).
    destruct (SoecIOProps.sign_no_space (SoecIOModel.negative rho) 1 (round_abs 1 rho)) as (A & B).
    rewrite (split_last k _ A B). apply (print_parse _ 1 _ ltac:(lia)).
  - cbn [SoecIOProps.title_of]. now rewrite SoecIOProps.rstrip_app by reflexivity.
Qed.

(** ** Outputs *)
(** A completed CRYSTAL run which prints the upper triangle [x] and a density. *)
Definition mirrored (x : mat6) : mat6 := fun i j => x (Nat.min i j) (Nat.max i j).
Record crystal_output (content : string) (x : mat6) (rho : R) : Prop := {
  crystal_decodes : is_text content = true;
  crystal_complete : exists c, SoecInterfaceModel.crystal_load (readlines content) SoecInterfaceModel.crystal_new = (c, SoecInterfaceModel.Completed);
  crystal_moduli : forall i j, i <= j < 6 -> SoecInterfaceProps.upper_printed (readlines content) i j (Num (x i j));
  crystal_rho : SoecInterfaceModel.crystal_density (readlines content) = inl (Num rho) }.
(** A VASP run which prints, in kbar and in its own order of axes, the tensor [x]. *)
Record vasp_output (content : string) (x : mat6) : Prop := {
  vasp_decodes : is_text content = true;
  vasp_complete : exists m, SoecInterfaceModel.vasp_load (readlines content) (fun _ _ => Num 0) = (m, SoecInterfaceModel.Completed);
  vasp_symmetric : symmetric6 x;
  vasp_moduli : forall l p q i j, SoecInterfaceModel.vasp_start_line (readlines content) = Some l -> p < 6 -> q < 6 -> i < 6 -> j < 6 ->
    SoecInterfaceProps.vasp_axes i = SoecInterfaceProps.voigt_axes p -> SoecInterfaceProps.vasp_axes j = SoecInterfaceProps.voigt_axes q ->
    SoecInterfaceProps.printed (readlines content) l i j (Num (10 * x p q)) }.
Definition exchanged (x : mat6) : mat6 := fun p q => x (SoecInterfaceProps.yz_zx p) (SoecInterfaceProps.yz_zx q).

Lemma mirrored_symmetric x : symmetric6 (mirrored x).
Proof. intros p q _ _. unfold mirrored. now rewrite Nat.min_comm, Nat.max_comm. Qed.
Lemma crystal_written f o a w content x rho : CliModel.fs w f = CliModel.File content -> crystal_output content x rho ->
  CliModel.fs w (input_path f o) <> CliModel.Dir ->
  exists v, inpgen SoecInpgenModel.Crystal f o (CliModel.Ok a) w = (CliModel.Ok tt, v) /\
  CliModel.fs v (input_path f o) = CliModel.File (SoecIOModel.write round_abs (job_of a) (mirrored x) rho) /\
  forall q, q <> input_path f o -> CliModel.fs v q = CliModel.fs w q.
Proof.
  intros F [T (c & E) N R0] D.
  assert (DEN : SoecInterfaceModel.c_density c = Num rho).
  { revert E. unfold SoecInterfaceModel.crystal_load. destruct (existsb (SoecInterfaceModel.contains SoecInterfaceModel.soec_option) _); [|discriminate].
    destruct (existsb (SoecInterfaceModel.contains SoecInterfaceModel.soec_completed) _); [|discriminate].
    cbn [negb]. rewrite R0. destruct (SoecInterfaceModel.fill SoecInterfaceModel.upper _ _) as [m [st|]]; intros Q; assert (X := f_equal fst Q); cbn [fst] in X; rewrite <- X; reflexivity. }
  assert (V : forall file i j v w, SoecInterfaceProps.upper_printed file i j v -> SoecInterfaceProps.upper_printed file i j w -> v = w).
  { intros g i j v w' (l & u & A & B & C0) (l' & u' & A' & B' & C'). congruence. }
  pose proof (SoecInterfaceProps.C58_first _ _ E) as P.
  assert (X : forall i j, i < 6 -> j < 6 -> SoecInterfaceModel.c_stiffness c i j = Num (mirrored x i j)).
  { intros i j Hi Hj. destruct (P i j Hi Hj) as [_ U]. exact (V _ _ _ _ _ U (N (Nat.min i j) (Nat.max i j) ltac:(lia))). }
  assert (C : SoecInpgenModel.collect is_text SoecInpgenModel.Crystal f content = SoecInpgenModel.Got (SoecInterfaceModel.c_stiffness c) (SoecInterfaceModel.c_density c)).
  { unfold SoecInpgenModel.collect. rewrite T. cbn [negb]. rewrite E. reflexivity. }
  destruct (SoecInpgenProps.generated t round_abs is_text SoecInpgenModel.Crystal f o a w content _ _ F C D) as (v & RUN & FS & _).
  exists v. split; [exact RUN|]. rewrite FS. split.
  - rewrite SoecInpgenProps.update_same. f_equal. now apply SoecInpgenProps.text_of_numbers.
  - intros q Hq. now apply SoecInpgenProps.update_other.
Qed.
Lemma vasp_written f o a w content x : CliModel.fs w f = CliModel.File content -> vasp_output content x ->
  CliModel.fs w (input_path f o) <> CliModel.Dir ->
  exists v, inpgen SoecInpgenModel.Vasp f o (CliModel.Ok a) w = (CliModel.Ok tt, v) /\
  CliModel.fs v (input_path f o) = CliModel.File (SoecIOModel.write round_abs (job_of a) (exchanged x) 0) /\
  forall q, q <> input_path f o -> CliModel.fs v q = CliModel.fs w q.
Proof.
  intros F [T (m & E) Y N] D.
  destruct (SoecInterfaceProps.C56_exchanged _ _ _ E) as (l & L & P).
  assert (X : forall i j, i < 6 -> j < 6 -> m i j = Num (exchanged x i j)).
  { intros p q Hp Hq. pose proof (SoecInterfaceProps.yz_zx_range p Hp) as Rp. pose proof (SoecInterfaceProps.yz_zx_range q Hq) as Rq.
    destruct (SoecInterfaceProps.has_axes _ Rp) as (i & Hi & AI). destruct (SoecInterfaceProps.has_axes _ Rq) as (j & Hj & AJ).
    destruct (P p q i j Hp Hq Hi Hj AI AJ) as (v & PV & MV).
    rewrite (SoecInterfaceProps.printed_unique _ _ _ _ _ _ PV (N l _ _ i j L Rp Rq Hi Hj AI AJ)), <- SoecInterfaceProps.tenth_in_GPa in MV. rewrite MV. unfold exchanged, SoecInterfaceModel.tenth. f_equal. field. }
  assert (C : SoecInpgenModel.collect is_text SoecInpgenModel.Vasp f content = SoecInpgenModel.Got m (Num 0)).
  { unfold SoecInpgenModel.collect. rewrite T. cbn [negb]. rewrite E. reflexivity. }
  destruct (SoecInpgenProps.generated t round_abs is_text SoecInpgenModel.Vasp f o a w content _ _ F C D) as (v & RUN & FS & _).
  exists v. split; [exact RUN|]. rewrite FS. split.
  - rewrite SoecInpgenProps.update_same. f_equal. now apply SoecInpgenProps.text_of_numbers.
  - intros q Hq. now apply SoecInpgenProps.update_other.
Qed.
Lemma no_density : kept_density 0 = 0%R.
Proof.
  unfold kept_density, SoecIOProps.rounded. pose proof (round_near 1 0) as Q. rewrite Rabs_R0, Rmult_0_l, Rminus_0_r in Q.
  assert (round_abs 1 0%R = 0%N) as ->.
  { destruct (round_abs 1 0%R) as [|p]; [reflexivity|]. exfalso. rewrite Rabs_right in Q by (apply Rle_ge, IZR_le; lia).
    assert (1 <= IZR (Z.of_N (N.pos p)))%R by (apply IZR_le; lia). lra. }
  cbn [Z.of_N]. ring.
Qed.

(** ** The chain *)
Lemma same_end u v x y : String.length x = String.length y -> u +++ x = v +++ y -> x = y.
Proof.
  intros L E. assert (String.length u = String.length v) as N.
  { apply (f_equal String.length) in E. rewrite !append_length in E. lia. }
  rewrite <- (CliProofs.suffix_app u x), E, N. apply CliProofs.suffix_app.
Qed.
Lemma data_path f o : exists p, input_path f o = p +++ "dat".
Proof. unfold SoecInpgenModel.input_path. destruct o as [o|]; [exists (o +++ ".")|exists (CliModel.root f +++ "_soec_input.")]; rewrite CliProofs.append_assoc3; reflexivity. Qed.
Variables (inverse : mat6 -> option mat6) (eigenvalues : mat6 -> list R).
Variable brute : (angles -> R) -> nat -> angles * R.
Variable powell : (R -> R) -> R.
Variable velocities : mat6 -> R -> angles -> list R.
Variables (time_line : string) (float_text : R -> string) (encode : h5 -> string).
Variable nan_case : SoecIOModel.data -> CliModel.method (string + CliModel.job).
Variables (punit : string) (pol plt mpl : bool) (o2 : option string) (silent d : bool) (a2 : CliModel.result bool).
Variables (f : string) (o : option string) (a : string) (w : CliModel.world).
Notation ip := (input_path f o).
Notation out := (CliModel.outpath (CliModel.soec_command (print_settings punit)) ip o2).
Notation lf := (CliModel.logpath out).
Notation soec := (soec_main inverse eigenvalues brute powell velocities time_line float_text encode nan_case punit pol plt mpl ip o2 silent d a2).
(** Both commands can write, and the second may replace what it finds. *)
Record room : Prop := {
  data_room : CliModel.fs w ip <> CliModel.Dir;
  log_room : CliModel.fs w lf <> CliModel.Dir;
  out_room : CliModel.fs w out = CliModel.Absent \/ CliModel.fs w out <> CliModel.Dir /\ a2 = CliModel.Ok true;
  description : SoecInpgenProps.proper_title a }.
(** numpy inverts the matrix of the file and gives its eigenvalues. *)
Record solved (c Sm : mat6) : Prop := {
  solved_inverse : inverse c = Some Sm;
  solved_inverted : inverse6 c Sm;
  solved_some : eigenvalues c <> [];
  solved_true : forall x, In x (eigenvalues c) -> eigenvalue c x }.
Lemma paths_apart : lf <> ip /\ out <> ip.
Proof.
  destruct (data_path f o) as (p & E). destruct (CliProofs.out_last (CliModel.soec_command (print_settings punit)) ip o2) as (q & Q); [now exists "_SOEC"|].
  split; intros X.
  - unfold CliModel.logpath in X. revert X. generalize (CliModel.root out). intros r X. rewrite E in X. change (".txt"%string) with ("." +++ "txt") in X. rewrite <- CliProofs.append_assoc3 in X. apply same_end in X; [discriminate X|reflexivity].
  - rewrite Q, E in X. change (".hdf5"%string) with (".h" +++ "df5") in X. rewrite <- CliProofs.append_assoc3 in X. apply same_end in X; [discriminate X|reflexivity].
Qed.
Lemma carried v x rho Sm : room -> symmetric6 x -> CliModel.fs v ip = CliModel.File (SoecIOModel.write round_abs (job_of a) x rho) ->
  (forall q, q <> ip -> CliModel.fs v q = CliModel.fs w q) -> solved (kept x) Sm ->
  ready inverse eigenvalues punit ip o2 a2 v (SoecIOModel.write round_abs (job_of a) x rho) (rstrip (job_of a)) (kept x) (kept_density rho) Sm.
Proof.
  intros [D1 D2 D3 (T1 & T2)] Y F K [S1 S2 S3 S4]. destruct paths_apart as (N1 & N2).
  constructor; [exact F|now apply written_described|apply kept_sized|now apply kept_symmetric|exact S1|exact S2|exact S3|exact S4|now rewrite K|exact N1|now rewrite K].
Qed.
(** What the second command tells and saves about a tensor [x]. *)
Definition analysed (v v' : CliModel.world) (c Sm : mat6) (rho : R) : Prop :=
  logged punit ip o2 v' ["Reading input file: " +++ ip] /\
  (exists sys, crystal c sys /\ logged punit ip o2 v' ["Elastic analysis of " +++ rstrip (job_of a); ""; "System is " +++ system_name sys]) /\
  (rho <> 0%R -> logged punit ip o2 v' ["Density: " +++ float_text rho +++ " kg m^-3"]) /\
  (rho = 0%R -> logged punit ip o2 v' ["Density: not provided"]) /\
  (exists stiff, logged punit ip o2 v' ("Stiffness matrix (values in GPa)" :: stiff) /\ matrix_rows 4 c stiff) /\
  (positive_definite c ->
    (exists names l1 l2 l3, logged punit ip o2 v' ("Average properties" :: names ++ [l1; l2; l3]) /\
      row5 "Voigt" (bulk_voigt c) (shear_voigt c) l1 /\ row5 "Reuss" (bulk_reuss Sm) (shear_reuss Sm) l2 /\
      row5 "Hill" (mean (bulk_voigt c) (bulk_reuss Sm)) (mean (shear_voigt c) (shear_reuss Sm)) l3) /\
    ((0 < rho)%R -> exists ls lp vs vp, logged punit ip o2 v' ["Average (VRH) wave velocities"; ls; lp] /\
      says ls [Word "-"; Word "Transversal"; Word "(Vs):"; Decimals 5 vs; Word "km/s"] /\
      says lp [Word "-"; Word "Longitudinal"; Word "(Vp):"; Decimals 5 vp; Word "km/s"] /\ (0 < vs < vp)%R /\
      (rho * vs ^ 2 = 1000 * mean (shear_voigt c) (shear_reuss Sm))%R /\ (rho * (vp ^ 2 - 4 / 3 * vs ^ 2) = 1000 * mean (bulk_voigt c) (bulk_reuss Sm))%R) /\
    exists h m m', CliModel.fs v' out = CliModel.File (encode h) /\
      find "stiffness" (datasets h) = Some {| values := Mat m; unit_of := punit |} /\ holds m c /\
      find "compliance" (datasets h) = Some {| values := Mat m'; unit_of := "TPa^-1" |} /\ holds m' Sm) /\
  (forall q, q <> lf -> q <> out -> CliModel.fs v' q = CliModel.fs v q).
Lemma analysis v x rho Sm : room -> symmetric6 x -> CliModel.fs v ip = CliModel.File (SoecIOModel.write round_abs (job_of a) x rho) ->
  (forall q, q <> ip -> CliModel.fs v q = CliModel.fs w q) -> solved (kept x) Sm ->
  exists v', soec v = (CliModel.Ok tt, v') /\ analysed v v' (kept x) Sm (kept_density rho).
Proof.
  intros R0 Y F K S0. pose proof (carried v x rho Sm R0 Y F K S0) as H.
  exists (snd (soec v)).
  destruct (C94_input inverse eigenvalues brute powell velocities time_line float_text encode nan_case punit pol plt mpl ip o2 silent d a2 v _ _ _ _ _ H)
    as (A & sys & stiff & compl & B1 & B2 & B3 & B4 & B5 & B6 & B7 & _).
  split; [rewrite <- A; apply surjective_pairing|].
  split; [exact B2|]. split; [exists sys; split; assumption|]. split; [exact B4|]. split; [exact B5|]. split; [exists stiff; split; assumption|]. split; [intros P|].
  - destruct (C94_averages inverse eigenvalues brute powell velocities time_line float_text encode nan_case punit pol plt mpl ip o2 silent d a2 v _ _ _ _ _ H P)
      as ((n & l1 & l2 & l3 & L & L1 & L2 & L3) & _ & _ & Wv & _).
    destruct (C94_saved inverse eigenvalues brute powell velocities time_line float_text encode nan_case punit pol plt mpl ip o2 silent d a2 v _ _ _ _ _ H P)
      as ((h & m & m' & E1 & _ & E3 & E4 & E5 & E6 & _) & _).
    split; [exists n, l1, l2, l3; repeat split; assumption|]. split; [exact Wv|]. exists h, m, m'. repeat split; try assumption; apply E4 || apply E6.
  - destruct (completes inverse eigenvalues brute powell velocities time_line float_text encode nan_case punit pol plt mpl ip o2 silent d a2 v _ _ _ _ _ H)
      as (sys' & v0 & _ & Q & _ & _ & Fr). rewrite Q. exact Fr.
Qed.
(** From a CRYSTAL output: both commands end normally, the output itself is not
    changed, and what is told and saved belongs to a matrix within 5e-5 GPa of
    the printed one, with Voigt averages as close, and a density within 0.05. A
    crystal which is stable by more than 3e-4 GPa stays stable. *)
Theorem C101_elastic content x rho Sm : CliModel.fs w f = CliModel.File content -> crystal_output content x rho -> room ->
  let c := kept (mirrored x) in let rho' := kept_density rho in solved c Sm ->
  exists v v', inpgen SoecInpgenModel.Crystal f o (CliModel.Ok a) w = (CliModel.Ok tt, v) /\ soec v = (CliModel.Ok tt, v') /\
  (forall q, q <> ip -> CliModel.fs v q = CliModel.fs w q) /\ analysed v v' c Sm rho' /\
  symmetric6 c /\ alike c (mirrored x) /\ (Rabs (rho' - rho) <= 5e-2)%R /\
  (Rabs (bulk_voigt c - bulk_voigt (mirrored x)) <= 5e-5)%R /\ (Rabs (shear_voigt c - shear_voigt (mirrored x)) <= 5e-5)%R /\
  (forall margin, (3e-4 < margin)%R -> stable_by margin (mirrored x) -> positive_definite c).
Proof.
  intros F C R0 c rho' S0. destruct (crystal_written f o a w content x rho F C (data_room R0)) as (v & E & T & K).
  destruct (analysis v (mirrored x) rho Sm R0 (mirrored_symmetric x) T K S0) as (v' & E' & H). exists v, v'.
  pose proof (kept_alike (mirrored x)) as A.
  split; [exact E|]. split; [exact E'|]. split; [exact K|]. split; [exact H|]. split; [apply kept_symmetric, mirrored_symmetric|]. split; [exact A|].
  split; [apply kept_density_near|]. split; [now apply alike_bulk|]. split; [now apply alike_shear|].
  intros margin M B. apply (stable_positive _ (margin - 3e-4)); [lra|]. now apply (alike_stable _ (mirrored x)).
Qed.
(** From a VASP output the results belong to the tensor with the yz and zx shears
    exchanged, and the density is missing; the averages do not depend on it. *)
Theorem C101_vasp content x Sm : CliModel.fs w f = CliModel.File content -> vasp_output content x -> room ->
  let c := kept (exchanged x) in solved c Sm ->
  exists v v', inpgen SoecInpgenModel.Vasp f o (CliModel.Ok a) w = (CliModel.Ok tt, v) /\ soec v = (CliModel.Ok tt, v') /\
  (forall q, q <> ip -> CliModel.fs v q = CliModel.fs w q) /\ analysed v v' c Sm 0 /\
  symmetric6 c /\ alike c (exchanged x) /\
  (Rabs (bulk_voigt c - bulk_voigt x) <= 5e-5)%R /\ (Rabs (shear_voigt c - shear_voigt x) <= 5e-5)%R.
Proof.
  intros F C R0 c S0. destruct (vasp_written f o a w content x F C (data_room R0)) as (v & E & T & K).
  assert (Y : symmetric6 (exchanged x)).
  { intros p q Hp Hq. apply (vasp_symmetric _ _ C); now apply SoecInterfaceProps.yz_zx_range. }
  destruct (analysis v (exchanged x) 0 Sm R0 Y T K S0) as (v' & E' & H). rewrite no_density in H. exists v, v'.
  pose proof (kept_alike (exchanged x)) as A.
  split; [exact E|]. split; [exact E'|]. split; [exact K|]. split; [exact H|]. split; [now apply kept_symmetric|]. split; [exact A|].
  replace (bulk_voigt x) with (bulk_voigt (exchanged x)) by reflexivity.
  replace (shear_voigt x) with (shear_voigt (exchanged x)) by (unfold shear_voigt, trace3, off3, shears, exchanged; cbn [SoecInterfaceProps.yz_zx Nat.eqb]; lra).
  split; [now apply alike_bulk|now apply alike_shear].
Qed.
(** So a crystal whose yz and zx shears differ is analysed as another one: no
    matrix is close both to what was saved and to what was printed. *)
Theorem C101_vasp_refuted content x Sm : CliModel.fs w f = CliModel.File content -> vasp_output content x -> room ->
  let c := kept (exchanged x) in solved c Sm -> positive_definite c -> (1e-4 < Rabs (x 3%nat 3%nat - x 4%nat 4%nat))%R ->
  exists v h m, CliModel.fs (snd (soec v)) out = CliModel.File (encode h) /\ inpgen SoecInpgenModel.Vasp f o (CliModel.Ok a) w = (CliModel.Ok tt, v) /\
  find "stiffness" (datasets h) = Some {| values := Mat m; unit_of := punit |} /\
  (5e-5 < Rabs (nth 3 (nth 3 m []) 0 - x 3%nat 3%nat))%R /\ ~ alike c x.
Proof.
  intros F C R0 c S0 P N. destruct (C101_vasp content x Sm F C R0 S0) as (v & v' & E & E' & K & (_ & _ & _ & _ & _ & H & _) & Y & A & _).
  destruct (H P) as (_ & _ & h & m & m' & H1 & H2 & H3 & _). exists v, h, m. rewrite E'. split; [exact H1|]. split; [exact E|]. split; [exact H2|].
  assert (Q : (5e-5 < Rabs (c 3%nat 3%nat - x 3%nat 3%nat))%R).
  { pose proof (A 3 3 ltac:(lia) ltac:(lia)) as B. change (exchanged x 3 3) with (x 4 4) in B. fold c in B. unfold Rabs in *.
    destruct (Rcase_abs (c 3 3 - x 3 3)), (Rcase_abs (c 3 3 - x 4 4)), (Rcase_abs (x 3 3 - x 4 4)); lra. }
  destruct H3 as (_ & H3). rewrite H3 by lia. split; [exact Q|]. intros X. specialize (X 3 3 ltac:(lia) ltac:(lia)). fold c in X. lra.
Qed.
(** A crystal stable by less than the digits written may not stay so: 4e-5 GPa in
    every strain is written as 0. *)
Theorem C101_softest_refuted : let x : mat6 := fun i j => if i =? j then 4e-5%R else 0%R in
  stable_by 4e-5 x /\ ~ positive_definite (kept x).
Proof.
  intros x. split.
  - intros e. unfold energy, apply6, length2, x. cbn [Nat.eqb]. lra.
  - intros P. assert (Z : forall i j, i < 6 -> j < 6 -> kept x i j = 0%R).
    { intros i j Hi Hj. unfold kept. destruct (Nat.ltb_spec i 6); [|lia]. destruct (Nat.ltb_spec j 6); [|lia]. cbn [andb]. unfold SoecIOProps.rounded.
      assert (round_abs 4 (x i j) = 0%N) as ->; [|cbn [Z.of_N]; ring].
      pose proof (round_near 4 (x i j)) as Q. assert (B : (Rabs (x i j) * 10 ^ 4 <= 4 / 10)%R).
      { unfold x. destruct (i =? j); [rewrite Rabs_right by lra|rewrite Rabs_R0]; simpl; lra. }
      destruct (round_abs 4 (x i j)) as [|n]; [reflexivity|]. exfalso. apply Rabs_le_inv in Q.
      assert (1 <= IZR (Z.of_N (N.pos n)))%R by (apply IZR_le; lia). lra. }
    specialize (P (fun _ => 1%R)). assert (N : nonzero6 (fun _ => 1%R)) by (exists 0; split; [lia|lra]). specialize (P N).
    unfold energy, apply6 in P. rewrite !Z in P by lia. lra.
Qed.
End Elastic.

(** ** A glass computed with CRYSTAL, and a crystal with unequal shears computed with VASP *)
Lemma scaled_near k x : (Rabs (IZR (Z.of_N (scaled k x)) - Rabs x * 10 ^ k) <= 1 / 2)%R.
Proof.
  unfold scaled. assert (P : (0 < powerRZ 10 (Z.of_nat k))%R) by apply p10.
  rewrite to_N_nearest by (apply Rmult_le_pos; [apply Rabs_pos|lra]). rewrite <- pow_powerRZ in *.
  rewrite Rabs_minus_sym. apply (Rle_trans _ _ _ (Znearest_half _ _)). lra.
Qed.
Lemma rounded_int k z : SoecIOProps.rounded scaled k (IZR z) = IZR z.
Proof.
  rewrite <- (ChainOtherProps.fix_exact k z) at 2. unfold SoecIOProps.rounded, fix_value, sgn, SoecIOModel.negative.
  destruct (Rlt_dec (IZR z) 0), (Rlt_bool_spec (IZR z) 0); try reflexivity; lra.
Qed.
Lemma kept_ints x c : sized c -> (forall i j, i < 6 -> j < 6 -> exists z, x i j = IZR z /\ c i j = IZR z) -> kept scaled x = c.
Proof.
  intros Z H. apply functional_extensionality; intros i. apply functional_extensionality; intros j. unfold kept.
  destruct (Nat.ltb_spec i 6) as [Hi|Hi], (Nat.ltb_spec j 6) as [Hj|Hj]; cbn [andb]; [|symmetry; apply Z; lia..].
  destruct (H i j Hi Hj) as (z & -> & ->). apply rounded_int.
Qed.
Definition ended_lines (l : list string) : string := String.concat "" (map (fun x => x +++ nlc) l).
Definition glass_out : string := ended_lines
  [" ELASTCON OPTION"; " GEOMETRY NOW FULLY CONSISTENT WITH THE GROUP"; " PRIMITIVE CELL - CENTRING CODE 1/0 VOLUME= 74.7 - DENSITY 2.5 g/cm^3";
   " SYMMETRIZED ELASTIC CONSTANTS FOR CUBIC CASE, IN GPa"; "";
   " | 9 3 3 0 0 0 |"; " | 9 3 0 0 0 |"; " | 9 0 0 0 |"; " | 3 0 0 |"; " | 3 0 |"; " | 3 |"; " FINAL RESULTS START"].
Definition disk_of (f content : string) : CliModel.world :=
  {| CliModel.fs := fun q => if String.eqb q f then CliModel.File content else CliModel.Absent; CliModel.screen := [] |}.
Ltac read_number :=
  match goal with |- parse_float ?t = _ =>
    let r := eval cbv -[literal] in (parse_float t) in change (parse_float t) with r end;
  apply SoecIOProps.lit;
  match goal with |- context [Z.of_N ?x] => let r := eval vm_compute in (Z.of_N x) in change (Z.of_N x) with r end;
  match goal with |- context [powerRZ 10 ?x] => let r := eval vm_compute in x in change x with r end.
Lemma glass_output : crystal_output (fun _ => true) glass_out glass 2500.
Proof.
  constructor.
  - reflexivity.
  - eexists. vm_compute. reflexivity.
  - intros i j H.
    do 6 (destruct i as [|i]; [do 6 (destruct j as [|j]; [first [exfalso; lia|do 2 eexists; split; [vm_compute; reflexivity|split; [vm_compute; reflexivity|read_number; unfold glass; cbn; lra]]]|]); exfalso; lia|]). exfalso. lia.
  - assert (D : SoecInterfaceModel.crystal_density (readlines glass_out) = inl (fmul (literal false "2" "5" 0) (Num 1000))) by (vm_compute; reflexivity).
    rewrite D. f_equal. unfold literal, fmul. change (Z.of_N (digits ("2" +++ "5"))) with 25%Z. change (0 - Z.of_nat (String.length "5"))%Z with (-1)%Z. cbv beta iota zeta delta [powerRZ Pos.to_nat Pos.iter_op Nat.add]. rewrite ?pow_1. cbn [fop]. f_equal. lra.
Qed.
Definition glass_inverse : mat6 -> option mat6 := only glass (isotropic_S 5 3).
Lemma glass_kept : kept scaled (mirrored glass) = glass.
Proof.
  destruct glass_facts as (Y & Z & _). apply kept_ints; [exact Z|]. intros i j Hi Hj.
  assert (mirrored glass i j = glass i j) as ->.
  { unfold mirrored. destruct (Nat.le_ge_cases i j); [rewrite Nat.min_l, Nat.max_r by lia; reflexivity|rewrite Nat.min_r, Nat.max_l by lia; now apply Y]. }
  do 6 (destruct i as [|i]; [do 6 (destruct j as [|j]; [eexists; split; reflexivity|]); exfalso; lia|]). exfalso. lia.
Qed.
Lemma glass_solved : solved glass_inverse (fun _ => [3; 3; 3; 6; 6; 15]%R) glass (isotropic_S 5 3).
Proof.
  destruct glass_facts as (_ & _ & I & _). constructor; [|exact I|discriminate|apply glass_eigenvalues].
  unfold glass_inverse, only. now destruct (Req_EM_T _ _).
Qed.
Lemma room_of f o o2 a2 w a : CliModel.fs w (SoecInpgenModel.input_path f o) = CliModel.Absent -> 
  CliModel.fs w (CliModel.logpath (CliModel.outpath (CliModel.soec_command (print_settings "GPa")) (SoecInpgenModel.input_path f o) o2)) = CliModel.Absent ->
  CliModel.fs w (CliModel.outpath (CliModel.soec_command (print_settings "GPa")) (SoecInpgenModel.input_path f o) o2) = CliModel.Absent ->
  SoecInpgenProps.proper_title a -> room "GPa" o2 a2 f o a w.
Proof. intros A B C T. constructor; [now rewrite A|now rewrite B|now left|exact T]. Qed.
(** The directory /work has an output of CRYSTAL only; the description typed is
    "Glass, B3LYP"; the moduli are saved as printed. *)
Example C101_elastic_instance : let w := disk_of "/work/g.out" glass_out in
  exists v v', SoecInpgenModel.soec_inpgen (CliModel.Build_texts "" "" "" "" "" "" "") scaled (fun _ => true) SoecInpgenModel.Crystal "/work/g.out" None (CliModel.Ok "Glass, B3LYP") w = (CliModel.Ok tt, v) /\
  soec_main glass_inverse (fun _ => [3; 3; 3; 6; 6; 15]%R) search_origin (fun g => g (PI / 2)%R) (fun _ _ _ => [2; 2; 4]%R)
    "Calculation time: 1.0 s" (fun _ => "2500.0") (fun h => "h5") (fun _ => ([], CliModel.Raises "")) "GPa" true false true "/work/g_soec_input.dat" None true false (CliModel.Ok false) v = (CliModel.Ok tt, v') /\
  logged "GPa" "/work/g_soec_input.dat" None v' ["Elastic analysis of Glass, B3LYP"; ""; "System is cubic"] /\
  logged "GPa" "/work/g_soec_input.dat" None v' ["Density: 2500.0 kg m^-3"] /\
  CliModel.fs v' "/work/g_soec_input_SOEC.hdf5" = CliModel.File "h5" /\ CliModel.fs v' "/work/g.out" = CliModel.File glass_out /\
  stable_by 3 (mirrored glass).
Proof.
  intros w. set (t := CliModel.Build_texts "" "" "" "" "" "" "").
  destruct (C101_elastic t scaled scaled_near (fun _ => true) glass_inverse (fun _ => [3; 3; 3; 6; 6; 15]%R) search_origin (fun g => g (PI / 2)%R) (fun _ _ _ => [2; 2; 4]%R)
    "Calculation time: 1.0 s" (fun _ => "2500.0") (fun h => "h5") (fun _ => ([], CliModel.Raises "")) "GPa" true false true None true false (CliModel.Ok false)
    "/work/g.out" None "Glass, B3LYP" w glass_out glass 2500 (isotropic_S 5 3)) as (v & v' & E & E' & K & (A1 & (sys & A2 & A3) & A4 & _ & _ & A5 & A6) & _ & _ & Rn & _ & _ & St).
  - reflexivity.
  - exact glass_output.
  - apply room_of; try reflexivity. split; [reflexivity|exists "G"%char; split; reflexivity].
  - rewrite glass_kept. exact glass_solved.
  - rewrite glass_kept in A2, A5, St. assert (RHO : kept_density scaled 2500 = 2500%R) by apply rounded_int. rewrite RHO in A4.
    assert (SB : stable_by 3 (mirrored glass)).
    { intros e. unfold energy, apply6, length2, mirrored, glass. cbn [Nat.min Nat.max nth].
      pose proof (Rle_0_sqr (e 0%nat + e 1%nat + e 2%nat)%R). pose proof (Rle_0_sqr (e 0%nat)). pose proof (Rle_0_sqr (e 1%nat)). pose proof (Rle_0_sqr (e 2%nat)). unfold Rsqr in *. lra. }
    assert (P : positive_definite glass) by (apply (St 3%R); [lra|exact SB]).
    exists v, v'. split; [exact E|]. split; [exact E'|].
    assert (KC : crystal glass Cubic).
    { split; [|intros s' L; destruct s'; cbn in L; lia]. unfold enforced, all_negligible, orthotropic_zeros, negligible, approx, SymmetryProofs.C, glass.
      cbn [fst snd Nat.sub nth]. repeat split; repeat apply Forall_cons; try apply Forall_nil; cbn [fst snd Nat.sub nth]; unfold Rabs; destruct (Rcase_abs _); lra. }
    rewrite (one_system glass sys Cubic (proj1 glass_facts) A2 KC) in A3.
    split; [exact A3|]. split; [apply A4; lra|]. destruct (A5 P) as (_ & _ & h & m & m' & F1 & _).
    split; [exact F1|]. split; [|exact SB]. rewrite A6, K; [reflexivity| | |]; vm_compute; discriminate.
Qed.

Definition uneven : mat6 := fun i j => if i =? j then nth i [1; 1; 1; 1; 2; 1]%R 0%R else 0%R.
Definition uneven_kept : mat6 := fun i j => if i =? j then nth i [1; 1; 1; 2; 1; 1]%R 0%R else 0%R.
Definition uneven_inverse : mat6 := fun i j => if i =? j then nth i [1; 1; 1; 1/2; 1; 1]%R 0%R else 0%R.
Definition uneven_out : string := ended_lines
  [" SYMMETRIZED ELASTIC MODULI (kBar)"; " Direction XX YY ZZ XY YZ ZX"; " -----";
   " XX 10 0 0 0 0 0"; " YY 0 10 0 0 0 0"; " ZZ 0 0 10 0 0 0";
   " XY 0 0 0 10 0 0"; " YZ 0 0 0 0 10 0"; " ZX 0 0 0 0 0 20"].
Lemma axis_of i p : i < 6 -> p < 6 -> SoecInterfaceProps.vasp_axes i = SoecInterfaceProps.voigt_axes p -> i = nth p [0; 1; 2; 4; 5; 3] 0.
Proof.
  intros Hi Hp E. do 6 (destruct p as [|p]; [do 6 (destruct i as [|i]; [first [reflexivity|discriminate E]|]); lia|]). lia.
Qed.
Lemma uneven_output : vasp_output (fun _ => true) uneven_out uneven.
Proof.
  constructor.
  - reflexivity.
  - eexists. vm_compute. reflexivity.
  - intros p q _ _. unfold uneven. rewrite (Nat.eqb_sym q p). destruct (Nat.eqb_spec p q) as [->|]; reflexivity.
  - intros l p q i j L Hp Hq Hi Hj AI AJ. assert (SL : SoecInterfaceModel.vasp_start_line (readlines uneven_out) = Some 3) by (vm_compute; reflexivity).
    rewrite SL in L. injection L as <-. rewrite (axis_of _ _ Hi Hp AI), (axis_of _ _ Hj Hq AJ). clear AI AJ Hi Hj i j SL.
    do 6 (destruct p as [|p]; [do 6 (destruct q as [|q]; [do 2 eexists; split; [vm_compute; reflexivity|split; [vm_compute; reflexivity|read_number; unfold uneven; cbn; lra]]|]); exfalso; lia|]). exfalso. lia.
Qed.
Lemma uneven_kept_is : kept scaled (exchanged uneven) = uneven_kept.
Proof.
  apply kept_ints.
  - intros i j L. unfold uneven_kept. destruct (Nat.eqb_spec i j) as [->|]; [|reflexivity]. apply nth_overflow. cbn. lia.
  - intros i j Hi Hj. do 6 (destruct i as [|i]; [do 6 (destruct j as [|j]; [eexists; split; reflexivity|]); exfalso; lia|]). exfalso. lia.
Qed.
Lemma uneven_solved : solved (only uneven_kept uneven_inverse) (fun _ => [1; 2]%R) uneven_kept uneven_inverse /\ positive_definite uneven_kept.
Proof.
  split; [constructor|].
  - unfold only. now destruct (Req_EM_T _ _).
  - intros p r Hp Hr. split; unfold mul6; destruct p as [|[|[|[|[|[|p]]]]]]; try lia; destruct r as [|[|[|[|[|[|r]]]]]]; try lia;
      unfold uneven_kept, uneven_inverse, delta; cbn [nth Nat.eqb]; field.
  - discriminate.
  - intros x Hx. assert (X : x = 1%R \/ x = 2%R) by (cbn in Hx; lra). destruct X as [->| ->].
    + exists (fun p => if p =? 0 then 1%R else 0%R). split; [exists 0; split; [lia|cbn; lra]|]. intros p Hp.
      destruct p as [|[|[|[|[|[|p]]]]]]; try lia; unfold apply6, uneven_kept; cbn [nth Nat.eqb]; ring.
    + exists (fun p => if p =? 3 then 1%R else 0%R). split; [exists 3; split; [lia|cbn; lra]|]. intros p Hp.
      destruct p as [|[|[|[|[|[|p]]]]]]; try lia; unfold apply6, uneven_kept; cbn [nth Nat.eqb]; ring.
  - apply (stable_positive _ 1%R); [lra|]. intros e. unfold energy, apply6, length2, uneven_kept. cbn [nth Nat.eqb].
    pose proof (Rle_0_sqr (e 3%nat)). unfold Rsqr in *. lra.
Qed.
Example C101_vasp_instance : let w := disk_of "/work/OUTCAR" uneven_out in
  CliModel.fs w "/work/OUTCAR" = CliModel.File uneven_out /\ vasp_output (fun _ => true) uneven_out uneven /\
  room "GPa" None (CliModel.Ok false) "/work/OUTCAR" (Some "/work/e") "" w /\
  solved (only uneven_kept uneven_inverse) (fun _ => [1; 2]%R) (kept scaled (exchanged uneven)) uneven_inverse /\
  positive_definite (kept scaled (exchanged uneven)) /\ (1e-4 < Rabs (uneven 3%nat 3%nat - uneven 4%nat 4%nat))%R.
Proof.
  intros w. rewrite uneven_kept_is. destruct uneven_solved as (A & B). split; [reflexivity|]. split; [exact uneven_output|].
  split; [apply room_of; try reflexivity; apply SoecInpgenProps.default_title|]. split; [exact A|]. split; [exact B|].
  unfold uneven. cbn [nth Nat.eqb]. rewrite Rabs_left; lra.
Qed.

Print Assumptions C101_elastic.
Print Assumptions C101_vasp.
Print Assumptions C101_vasp_refuted.
Print Assumptions C101_softest_refuted.
