(** C78: tables exported from seismic result files. *)
From Coq Require Import Reals String Ascii List Bool Arith ZArith Lia Lra.
From Flocq Require Import Core.
From Verif Require Import Py DecimalModel DecimalProofs SoecIOModel SoecIOProps FormatModel FormatProofs YamlSpec QhaWriterProofs SymmetryModel TensorModel TensorProps AverageProps QhaRunModel SeismicModel SeismicLinear SeismicProps SeismicObjProps SeismicIsoProps TableModel TableProofs TableProps SoecTableModel SoecTableProofs SoecTableProps SeismicTableModel.
Import ListNotations.
Open Scope string_scope.
Open Scope list_scope.
Open Scope nat_scope.

(** * Reading an exported file *)
Definition decimals : list nat := [6; 6; 5; 3; 4; 4; 4; 5; 3; 5; 5; 5; 4; 4].
Fixpoint each_rounded (ks : list nat) (xs : list R) : list (R -> Prop) :=
  match ks, xs with k :: ks, x :: xs => rounded k x :: each_rounded ks xs | _, _ => [] end.
(** A heading, two empty lines, one line of 14 numbers for each row. *)
Definition is_seismic_table (text : string) (heading : list string) (rows : list (list R)) : Prop :=
  exists body, lines text = heading ++ [""; ""] ++ body ++ [""] /\ List.length body = List.length rows /\
    forall i, i < List.length rows -> shows (nth i body "") (each_rounded decimals (nth i rows [])).
(** The heading: the description of the run, of the one dataset and of the columns. *)
Definition heading_of (dataset_line : string) : list string :=
  [""; "This file was created with Quantas."; "";
   "It contains the results of the Christoffel equation appliet to the second-order";
   "elastic constants (SOECs, matrix in Voigt's notation), performed with the";
   "following settings:"; "  - pressure scale:    GPa"; "  - density: kg m^-3"; "";
   "This file contains the following dataset:"; dataset_line; "";
   "Each dataset contains the following results (measurement unit):";
   "  - Column 1     : Theta angle (rad)"; "  - Column 2     : Phi angle (rad)"; "  - Column 3     : Phase velocity (km s^-1)";
   "  - Column 4     : Relative phase velocity (%)"; "  - Columns 5-7  : Phase polarization (x,y,z)"; "  - Column 8     : Group velocity (km s^-1)";
   "  - Column 9     : Relative group velocity (%)"; "  - Columns 10-12: x, y, and z coordinates of the ray surface";
   "  - Column 13    : Powerflow angle (degree)"; "  - Column 14    : Enhancement factor (log_10A)"].
Definition modes : list (string * (nat * string)) :=
  [("ssecondary", (0, "  - slow secondary data (ssecondary)")); ("fsecondary", (1, "  - fast secondary data (fsecondary)")); ("primary", (2, "  - primary data (primary)"))].

(** ** Lemmas *)
Lemma header_of selection i line : In (selection, (i, line)) modes ->
  seismic_header (seismic_info "GPa") selection = Some (concat_map (fun line => line +++ nl) (heading_of line)).
Proof. cbn [modes In]. intros H. decompose [or False] H; match goal with E : (_, _) = _ |- _ => injection E as <- <- <- end; vm_compute; reflexivity. Qed.
Lemma concat_lines l k : Forall no_newline l -> lines (concat_map (fun line => line +++ nl) l +++ k) = l ++ lines k.
Proof.
  induction 1 as [|a l N _ IH]; [reflexivity|]. cbn [concat_map fold_right app]. unfold nl in *. rewrite !append_assoc. cbn [String.append].
  unfold lines at 1. rewrite lines_aux_word by exact N. cbn [String.append]. change (a :: l ++ lines k) with ([a] ++ (l ++ lines k)). rewrite <- IH. reflexivity.
Qed.
Lemma join_some row fs : fs <> [] -> Forall (fun f => 1 <= snd f) fs -> List.length row = List.length fs ->
  exists s, join_fields fs row = Some s /\ no_newline s /\ shows s (each_rounded (map snd fs) row).
Proof.
  assert (NL : forall k x, no_newline (fix_text k x)) by apply no_newline_fix.
  assert (SP : forall n, no_newline (spaces n)) by (induction n; [reflexivity|exact IHn]).
  revert row. induction fs as [|[w k] fs IH]; intros [|x row] N P L; try discriminate L; [congruence|].
  inversion P as [|? ? K P']; subst. cbn [snd] in K. destruct (fmt_f_text w k x) as [n E].
  destruct fs as [|f fs].
  - destruct row as [|? ?]; [|discriminate L]. exists (fmt_f w k x). split; [reflexivity|]. rewrite E. split; [now apply no_newline_app|].
    exists [fix_value k x]. split; [|constructor; [apply fix_rounded|constructor]]. unfold numbers.
    rewrite <- (append_nil (spaces n +++ fix_text k x)), append_assoc. change (fix_text k x +++ "") with (fix_text k x +++ spaces 0 +++ "").
    rewrite split_piece; [|apply fix_no_space|apply fix_nonempty|now left].
    change (split "") with (@nil string). cbn [map all_some]. rewrite parse_fix by exact K. reflexivity.
  - destruct (IH row ltac:(discriminate) P' ltac:(cbn [List.length] in L |- *; lia)) as (s & J & Ns & vs & V1 & V2).
    exists (fmt_f w k x +++ " " +++ s). split; [|split].
    + change (join_fields ((w, k) :: f :: fs) (x :: row)) with (option_map (fun s => fmt_f w k x +++ " " +++ s) (join_fields (f :: fs) row)). now rewrite J.
    + rewrite E. apply no_newline_app; [now apply no_newline_app|]. apply no_newline_app; [reflexivity|exact Ns].
    + exists (fix_value k x :: vs). split; [|constructor; [apply fix_rounded|exact V2]]. unfold numbers in *.
      rewrite E, append_assoc. change (" " +++ s) with (spaces 0 +++ String " " s).
      rewrite split_piece; [|apply fix_no_space|apply fix_nonempty|right; eauto].
      change (String " " s) with (spaces 1 +++ s). rewrite split_spaces. cbn [map all_some]. rewrite parse_fix by exact K. cbn [number_of]. now rewrite V1.
Qed.
Lemma rows_written m : Forall (fun r => List.length r = 14) m ->
  exists body, seismic_rows m = (concat_map (fun l => l +++ nl) body, Done) /\ Forall no_newline body /\ List.length body = List.length m /\
    forall i, i < List.length m -> shows (nth i body "") (each_rounded decimals (nth i m [])).
Proof.
  induction 1 as [|r m L _ (body & E & N & LB & V)].
  - exists []. repeat split; [constructor|]. cbn [List.length]. lia.
  - destruct (join_some r formats ltac:(discriminate) ltac:(repeat constructor) L) as (s & J & Ns & Vs).
    exists (s :: body). cbn [seismic_rows]. rewrite J, E. unfold put. cbn [fst snd concat_map fold_right List.length]. repeat split.
    + now constructor.
    + now rewrite LB.
    + intros [|i] I; [exact Vs|]. cbn [nth]. apply V. cbn [List.length] in I. lia.
Qed.

(** * Any matrices *)
Definition seismic_result (f : h5) : Prop := exists slow fast prim, f = seismic_file "GPa" slow fast prim.
Definition seismic_history (files : list h5) : list (string * dataset) := fold_left (fun data f => fst (seismic_load f data)) files [].
Definition three (D : string -> dataset) : list (string * dataset) := map (fun n => (n, D n)) ["fsecondary"; "primary"; "ssecondary"].
Definition three_data (data : list (string * dataset)) : Prop := data = [] \/ exists D, data = three D.
Lemma history_three files : Forall seismic_result files -> three_data (seismic_history files).
Proof.
  unfold seismic_history. assert (Z : three_data []) by now left. revert Z. generalize (@nil (string * dataset)).
  induction files as [|f files IH]; intros data Z H; [exact Z|]. cbn [fold_left]. apply IH; [|now inversion H].
  inversion H as [|? ? (slow & fast & prim & ->)]; subst. right.
  exists (fun n => {| values := Mat (if String.eqb n "ssecondary" then slow else if String.eqb n "fsecondary" then fast else prim); unit_of := "" |}).
  destruct Z as [->|[D ->]]; reflexivity.
Qed.
Theorem C78_table files slow fast prim selection i line rows :
  Forall seismic_result files -> In (selection, (i, line)) modes -> nth_error [slow; fast; prim] i = Some rows ->
  Forall (fun r => List.length r = 14) rows ->
  let f := seismic_file "GPa" slow fast prim in
  let e := snd (seismic_load f (seismic_history files)) in
  In selection (skeys e) /\
  exists text, seismic_export (sinfo e) (seismic_history (files ++ [f])) selection = Opened (text, Done) /\
    is_seismic_table text (heading_of line) rows.
Proof.
  intros H M I F f e.
  assert (Q : last_matching selection (seismic_history (files ++ [f])) = Some {| values := Mat rows; unit_of := "" |}).
  { unfold seismic_history. rewrite fold_left_app. cbn [fold_left]. fold (seismic_history files).
    cbn [modes In] in M. destruct (history_three files H) as [->|[D ->]];
      decompose [or False] M; match goal with E : (_, _) = _ |- _ => injection E as <- <- <- end; injection I as <-; reflexivity. }
  split.
  { cbn [modes In] in M. decompose [or False] M; match goal with E : (_, _) = _ |- _ => injection E as <- <- <- end; cbn; tauto. }
  unfold seismic_export. rewrite Q. cbn [values].
  change (sinfo e) with (seismic_info "GPa"). rewrite (header_of selection i line M).
  destruct (rows_written rows F) as (body & E & N & LB & V). rewrite E. unfold put. cbn [fst snd].
  eexists. split; [reflexivity|]. exists body. split; [|now split].
  assert (NH : Forall no_newline (heading_of line)).
  { clear - M. cbn [modes In] in M. decompose [or False] M; match goal with E : (_, _) = _ |- _ => injection E as <- <- <- end;
      apply Forall_forall; intros x X; cbn [heading_of In] in X; decompose [or False] X; subst x; reflexivity. }
  rewrite append_assoc, concat_lines by exact NH. f_equal. rewrite append_assoc. unfold nl at 1 2. cbn [String.append].
  match goal with |- lines (String newline (String newline ?k)) = _ => change (lines (String newline (String newline k))) with ("" :: "" :: lines k) end. cbn [app]. f_equal. f_equal.
  rewrite <- (append_nil (concat_map _ body)), concat_lines by exact N. reflexivity.
Qed.

(** * A run and its exported modes *)
Section Run.
Variable eigh : mat3 -> (nat -> R) * mat3.
Variables (pinv inv : mat3 -> mat3).
Variables (C S : mat6) (rho : R).
Notation the_row := (fun tp i => row eigh pinv inv C S rho (spherical_direction C rho (fst tp) (snd tp)) i).
Lemma row_14 t p i : exists l, row eigh pinv inv C S rho (spherical_direction C rho t p) i = QhaRunModel.Ok l /\ List.length l = 14.
Proof. destruct (C55_row eigh pinv inv C S rho t p i) as (l & E & V). exists l. split; [exact E|]. cbv zeta in V. now rewrite V. Qed.
Lemma all_ok_rows (l : list (nat * (R * R))) i :
  exists rows, all_ok (fun '(_, (t, p)) => row eigh pinv inv C S rho (spherical_direction C rho t p) i) l = QhaRunModel.Ok rows /\
    List.length rows = List.length l /\ Forall (fun r => List.length r = 14) rows /\
    forall k c t p, nth_error l k = Some (c, (t, p)) -> row eigh pinv inv C S rho (spherical_direction C rho t p) i = QhaRunModel.Ok (nth k rows []).
Proof.
  induction l as [|[c [t p]] l (rows & E & L & F & V)].
  - exists []. repeat split; [constructor|]. intros [|k] c t p H; discriminate H.
  - destruct (row_14 t p i) as (r & Er & Lr). exists (r :: rows). cbn [all_ok]. rewrite Er. cbn [QhaRunModel.bind]. rewrite E. cbn [QhaRunModel.bind].
    repeat split; [cbn [List.length]; congruence|now constructor|]. intros [|k] c' t' p' H; cbn [nth_error nth] in *; [|now apply (V k c')].
    injection H as _ <- <-. exact Er.
Qed.
(** The file of mode i has one line for each node of the sphere, in the order of
    the loops, with the 14 values of the mode at the node. *)
Theorem C78_export files ntheta nphi selection i line : (2 <= ntheta) -> (2 <= nphi) ->
  Forall seismic_result files -> In (selection, (i, line)) modes ->
  exists slow fast prim, mode_rows eigh pinv inv C S rho ntheta nphi 0 = QhaRunModel.Ok slow /\
    mode_rows eigh pinv inv C S rho ntheta nphi 1 = QhaRunModel.Ok fast /\ mode_rows eigh pinv inv C S rho ntheta nphi 2 = QhaRunModel.Ok prim /\
    let f := seismic_file "GPa" slow fast prim in
    exists text body, seismic_export (sinfo (snd (seismic_load f (seismic_history files)))) (seismic_history (files ++ [f])) selection = Opened (text, Done) /\
      lines text = heading_of line ++ [""; ""] ++ body ++ [""] /\ List.length body = ntheta * nphi /\
      forall t p, t < ntheta -> p < nphi -> exists l,
        row eigh pinv inv C S rho (spherical_direction C rho (PI / 2 * (INR t / (INR ntheta - 1))) (2 * PI * (INR p / (INR nphi - 1)))) i = QhaRunModel.Ok l /\
        shows (nth (t * nphi + p) body "") (each_rounded decimals l).
Proof.
  intros T P H M.
  destruct (C55_rows ntheta nphi 0 0 T P ltac:(lia) ltac:(lia)) as (pts & SP & LP & _).
  assert (NP : forall t p, t < ntheta -> p < nphi -> nth_error pts (t * nphi + p) = Some (t * nphi + p, SeismicObjProps.angles ntheta nphi t p)).
  { intros t p Ht Hp. destruct (C55_rows ntheta nphi t p T P Ht Hp) as (pts' & SP' & _ & N). rewrite SP in SP'. injection SP' as <-. exact N. }
  destruct (all_ok_rows pts 0) as (slow & E0 & L0 & F0 & V0). destruct (all_ok_rows pts 1) as (fast & E1 & L1 & F1 & V1).
  destruct (all_ok_rows pts 2) as (prim & E2 & L2 & F2 & V2).
  exists slow, fast, prim. unfold mode_rows. rewrite SP. cbn [QhaRunModel.bind]. split; [exact E0|]. split; [exact E1|]. split; [exact E2|].
  set (f := seismic_file "GPa" slow fast prim). cbv zeta.
  assert (Q : exists rows, nth_error [slow; fast; prim] i = Some rows /\ List.length rows = List.length pts /\ Forall (fun r => List.length r = 14) rows /\
    forall k c t p, nth_error pts k = Some (c, (t, p)) -> row eigh pinv inv C S rho (spherical_direction C rho t p) i = QhaRunModel.Ok (nth k rows [])).
  { cbn [modes In] in M. decompose [or False] M; match goal with E : (_, _) = _ |- _ => injection E as <- <- <- end; cbn [nth_error];
      eexists; (split; [reflexivity|now repeat split]). }
  destruct Q as (rows & N & LR & FR & VR).
  destruct (C78_table files slow fast prim selection i line rows H M N FR) as (_ & text & EX & body & LT & LB & SH).
  exists text, body. split; [exact EX|]. split; [exact LT|]. split; [now rewrite LB, LR|].
  intros t p Ht Hp. specialize (NP t p Ht Hp).
  assert (BND : t * nphi + p < List.length rows) by (rewrite LR; apply nth_error_Some; rewrite NP; discriminate).
  exists (nth (t * nphi + p) rows []). split; [|now apply SH].
  unfold SeismicObjProps.angles in NP. exact (VR _ _ _ _ NP).
Qed.
End Run.

(** The last column is called log_10A, but is the factor itself: 1, not 0, where
    there is no focusing. *)
Theorem C78_enhancement_label_refuted eigh pinv inv K G rho C S t p i :
  (0 < K)%R -> (0 < G)%R -> (0 < rho)%R -> (forall a b, a < 6 -> b < 6 -> C a b = isotropic_C K G a b) -> i < 3 ->
  let n := vector t p in
  eigenpair (christoffel (Cmat C rho) n) (lam_at eigh C rho n i) (ev_at eigh C rho n i) ->
  let A : mat3 := fun j k => (lam_at eigh C rho n i * (if (j =? k)%nat then 1 else 0) - christoffel (Cmat C rho) n j k)%R in
  moore_penrose A (pinv A) ->
  inverts inv (direction_gradient (hess_at eigh pinv C rho n) (phase (lam_at eigh C rho n)) (g_abs (group_at eigh C rho n)) (g_vel (group_at eigh C rho n)) i) ->
  exists l, row eigh pinv inv C S rho (spherical_direction C rho t p) i = QhaRunModel.Ok l /\
    nth 13 l 0%R = 1%R /\ nth 13 l 0%R <> (ln 1 / ln 10)%R /\
    nth 22 (heading_of "") "" = "  - Column 14    : Enhancement factor (log_10A)".
Proof.
  intros HK HG HR HC Hi n EP A MP INV. destruct (C55_row eigh pinv inv C S rho t p i) as (l & E & V). cbv zeta in V. fold n in V.
  exists l. split; [exact E|]. rewrite V. cbn [nth].
  assert (X : enhancement_at eigh pinv inv C rho n i = 1%R).
  { apply (C53_no_focusing K G rho C HK HG HR HC n (proj1 (C30_unit t p 0)) (lam_at eigh C rho n) (ev_at eigh C rho n) i EP pinv inv MP INV). }
  rewrite X. rewrite ln_1. split; [reflexivity|]. split; [lra|reflexivity].
Qed.

(** * Accepted files *)
Theorem C78_accepts f data :
  (serror (snd (seismic_load f data)) = None <-> info f <> None /\ In "primary" (map fst (datasets f))) /\
  (serror (snd (seismic_load f data)) <> None -> fst (seismic_load f data) = data).
Proof.
  assert (F : forall l, In "primary" (map fst l) <-> find "primary" l <> @None dataset).
  { induction l as [|[k d] l IH]; cbn [map fst In find]; [tauto|]. destruct (String.eqb "primary" k) eqn:E.
    - apply String.eqb_eq in E. split; [discriminate|]. now left.
    - apply String.eqb_neq in E. rewrite IH. split; [intros [X|X]; [congruence|exact X]|tauto]. }
  rewrite F. unfold seismic_load. destruct (info f) as [i|]; [|cbn [snd fst serror]; split; [split; [discriminate|intros [X _]; congruence]|reflexivity]].
  destruct (find "primary" (datasets f)) as [d|]; cbn [snd fst serror]; (split; [split|]); try congruence.
  - now split.
  - now intros [_ X].
Qed.

(** * The density *)
(** A well-formed matrix file (whole or upper triangle) is accepted exactly with a
    density other than zero. *)
Theorem C78_density c pre rows rest rho :
  SoecIOProps.header pre rows -> density_of rest (Num 0) = Some rho ->
  Forall2 denotes rows (upper_rows c) \/ Forall2 denotes rows (full_rows c) /\ (forall i j, i < 6 -> j < 6 -> c i j = c j i) ->
  (read_input (pre ++ rows ++ rest) class_data = InputError no_density <-> rho = Num 0) /\
  (rho <> Num 0 -> exists d, read_input (pre ++ rows ++ rest) class_data = Accepted d /\ density d = rho).
Proof.
  intros H D F.
  assert (E : exists m, SoecIOModel.load (pre ++ rows ++ rest) class_data =
    ({| job := title_of pre (job class_data); stiffness := Some m; density := rho |}, Completed)).
  { destruct F as [F|[F Y]].
    - destruct (C35_upper c pre rows rest class_data rho H F D) as (m & E & _). eauto.
    - destruct (C35_full c pre rows rest class_data rho H F D Y) as (m & E & _). eauto. }
  destruct E as (m & E). unfold read_input. rewrite E. cbn [density].
  unfold is_zero. destruct rho as [r|]; try destruct (Req_EM_T r 0) as [->|N].
  all: try (split; [split|]; [discriminate||reflexivity|congruence||reflexivity|]; intros; (congruence || (eexists; split; reflexivity))).
Qed.
(** Without a line for it the calculation is refused; a negative value is not. *)
Example C78_calcite : read_input (firstn 7 calcite_upper) class_data = InputError no_density /\
  exists d, read_input calcite_upper class_data = Accepted d /\ density d = Num 2711.
Proof.
  destruct C35_instance as (H & F & D). split.
  - now apply (C78_density calcite ["Calcite"] (firstn 6 (skipn 1 calcite_upper)) [] (Num 0) H eq_refl (or_introl F)).
  - apply (C78_density calcite ["Calcite"] (firstn 6 (skipn 1 calcite_upper)) ["2711.0"] (Num 2711) H D (or_introl F)). intros X. injection X. lra.
Qed.
Theorem C78_negative_density_refuted : exists d, read_input (firstn 7 calcite_upper ++ ["-2711.0"]) class_data = Accepted d /\ density d = Num (-2711).
Proof.
  destruct C35_instance as (H & F & D).
  apply (C78_density calcite ["Calcite"] (firstn 6 (skipn 1 calcite_upper)) ["-2711.0"] (Num (-2711)) H); [|now left|intros X; injection X; lra].
  unfold density_of. change (split "-2711.0") with ["-2711.0"]. cbv iota. parse_lit.
Qed.

(** A sphere of two by three nodes of the crystal of C53: the fourth line of the
    fast secondary table is the first node on the equator. *)
Example C78_instance : exists slow fast prim text body l,
  mode_rows eigh31 (fun A => A) (fun A => A) C31 (isotropic_S 3 1) 1000 2 3 1 = QhaRunModel.Ok fast /\
  seismic_export (seismic_info "GPa") (seismic_history [seismic_file "GPa" slow fast prim]) "fsecondary" = Opened (text, Done) /\
  lines text = heading_of "  - fast secondary data (fsecondary)" ++ [""; ""] ++ body ++ [""] /\
  List.length body = 6 /\ shows (nth 3 body "") (rounded 6 (PI / 2) :: rounded 6 0 :: l).
Proof.
  destruct (C78_export eigh31 (fun A => A) (fun A => A) C31 (isotropic_S 3 1) 1000 [] 2 3 "fsecondary" 1 "  - fast secondary data (fsecondary)"
    ltac:(lia) ltac:(lia) (Forall_nil _) ltac:(cbn; tauto)) as (slow & fast & prim & _ & F & _ & text & body & E & T & L & V).
  destruct (V 1 0 ltac:(lia) ltac:(lia)) as (l & Rl & Sh).
  destruct (C55_row eigh31 (fun A => A) (fun A => A) C31 (isotropic_S 3 1) 1000 (PI / 2 * (INR 1 / (INR 2 - 1))) (2 * PI * (INR 0 / (INR 3 - 1))) 1) as (l' & R2 & V2).
  rewrite Rl in R2. injection R2 as <-. cbv zeta in V2. rewrite V2 in Sh. cbn [each_rounded decimals Nat.mul Nat.add] in Sh.
  exists slow, fast, prim, text, body. eexists. split; [exact F|]. split; [exact E|]. split; [exact T|]. split; [exact L|].
  replace (PI / 2 * (INR 1 / (INR 2 - 1)))%R with (PI / 2)%R in Sh by (cbn [INR]; field).
  replace (2 * PI * (INR 0 / (INR 3 - 1)))%R with 0%R in Sh by (cbn [INR]; field).
  exact Sh.
Qed.

Print Assumptions C78_table.
Print Assumptions C78_export.
Print Assumptions C78_enhancement_label_refuted.
Print Assumptions C78_accepts.
Print Assumptions C78_density.
Print Assumptions C78_negative_density_refuted.
