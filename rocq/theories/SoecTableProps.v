(** C77: tables exported from elastic result files. *)
From Coq Require Import Reals String Ascii List Bool Arith ZArith Lia Lra.
From Flocq Require Import Core.
From Verif Require Import Py DecimalModel DecimalProofs FormatModel FormatProofs YamlSpec QhaWriterProofs TableModel TableProofs TableProps StoreModel SymmetryModel TensorModel AverageProps SoecRunModel SoecTableModel SoecTableProofs.
Import ListNotations.
Open Scope string_scope.
Open Scope list_scope.
Open Scope nat_scope.

(** * Reading a polar table *)
Definition polar_names : list string := ["E"; "LC"; "G"; "Nu"; "waves"].
(** The title, the words over the columns of a plane, and their number. *)
Definition titles : list (string * string) :=
  [("E", "Young's modulus"); ("LC", "Linear compressibility"); ("G", "Shear modulus"); ("Nu", "Poisson's ratio"); ("waves", "Seismic wave velocities")].
Definition labels : list (string * list string) :=
  [("E", []); ("LC", ["positive"; "negative"]); ("G", ["minimum"; "maximum"]); ("Nu", ["negative"; "positive"; "measurement"]); ("waves", ["v_s1"; "vs_2"; "v_l"])].
Definition per_plane (name : string) : nat := if mem name ["E"] then 1 else if mem name ["LC"; "G"] then 2 else 3.
Definition word (name : string) (j : nat) : list string :=
  match find name labels with Some (w :: l) => [nth (j mod per_plane name) (w :: l) ""] | _ => [] end.
(** The j-th field of a line: 15 characters each after the first 10. *)
Definition field (j width : nat) (line : string) : string := substring (10 + 15 * j) width line.

(** The text of a complete polar table: title, unit, heads, the names of the
    planes and of their columns, one line per angle. Each value stands under the
    name of its plane and its column. *)
Definition is_polar_table (text name u : string) (angles : list R) (rows : list (list R)) : Prop :=
  exists title unitline top head planes words bar body,
    lines text = ["*- This file was created using Quantas -*"; ""; title; unitline; ""; top; head; planes; words; bar] ++ body ++ [bar] /\
    find name titles = Some title /\ unit_says true u unitline /\ head_says "Degrees" title head /\
    (forall p, p < 3 -> split (field (per_plane name * p) (15 * per_plane name) planes) = [nth p ["(xy)"; "(xz)"; "(yz)"] ""]) /\
    (forall j, j < 3 * per_plane name -> split (field j 15 words) = word name j) /\
    List.length body = List.length angles /\
    forall i, i < List.length angles ->
      shows (nth i body "") (rounded 1 (nth i angles 0%R) :: map (rounded 4) (nth i rows [])) /\
      (forall j, j < 3 * per_plane name -> shows (field j 15 (nth i body "")) [rounded 4 (nth j (nth i rows []) 0%R)]).

Lemma nth_soec_lines degrees value i : i < List.length degrees -> List.length degrees = List.length value ->
  nth i (soec_lines degrees value) "" = soec_row (nth i degrees 0%R) (nth i value []).
Proof.
  revert value i. induction degrees as [|d degrees IH]; intros [|r value] i H L; cbn [List.length] in H, L; try lia.
  destruct i as [|i]; [reflexivity|]. cbn [soec_lines nth]. apply IH; lia.
Qed.
Lemma length_soec_lines degrees value : List.length degrees = List.length value -> List.length (soec_lines degrees value) = List.length degrees.
Proof. revert value. induction degrees as [|d degrees IH]; intros [|r value] L; cbn [List.length] in L; try lia; [reflexivity|]. cbn [soec_lines List.length]. rewrite IH; lia. Qed.
Lemma soec_field d row j : narrow_degree d -> Forall narrow row -> j < List.length row -> field j 15 (soec_row d row) = soec_cell (nth j row 0%R).
Proof.
  intros D F J. unfold field, soec_row.
  assert (L : String.length (center dw (fix_text 1 d)) = 10) by (apply center_length; pose proof (degree_short d D); unfold dw; lia).
  rewrite <- (append_nil (concat_map soec_cell row)). replace (10 + 15 * j) with (String.length (center dw (fix_text 1 d)) + 15 * j) by (rewrite L; reflexivity). apply field_at; [|exact J].
  intros x X. apply cell_length. rewrite Forall_forall in F. now apply F.
Qed.
Lemma shows_cell x : narrow x -> shows (soec_cell x) [rounded 4 x].
Proof.
  intros H. exists [fix_value 4 x]. split; [|constructor; [apply fix_rounded|constructor]].
  unfold numbers. rewrite <- (append_nil (soec_cell x)). unfold soec_cell. rewrite split_center;
    [|apply fix_no_space|apply fix_nonempty|pose proof (cell_short x H); unfold vw; lia].
  cbn [split map all_some]. change (split "") with (@nil string). cbn [map all_some]. rewrite parse_fix by lia. reflexivity.
Qed.
Lemma spaces_plus n m : spaces (n + m) = spaces n +++ spaces m.
Proof. induction n; [reflexivity|]. cbn [Nat.add spaces]. now rewrite IHn. Qed.
Lemma soec_head n a b : head_says a b (soec_header n a b).
Proof.
  unfold soec_header, center. set (p := dw - String.length a). set (q := n - String.length b).
  exists (1 + p / 2), (p - p / 2 + (1 + q / 2)), (q - q / 2 + 1). rewrite !spaces_plus, !append_assoc. reflexivity.
Qed.

(** ** The table of any matrix of values *)
Theorem C77_table angles rows name u : In name polar_names -> no_newline u ->
  List.length angles = List.length rows -> Forall narrow_degree angles ->
  Forall (fun r => List.length r = 3 * per_plane name /\ Forall narrow r) rows ->
  exists text, soec_write angles (3 * per_plane name) rows name u = (text, Done) /\ is_polar_table text name u angles rows.
Proof.
  intros N U L A F.
  assert (K : exists k, soec_types name = Some k /\ find name titles = Some (sdesc k)).
  { cbn [polar_names In] in N. decompose [or False] N; subst name; eexists; split; reflexivity. }
  destruct K as (k & K & T).
  rewrite (soec_written angles _ rows name u k K L).
  eexists. split; [reflexivity|].
  set (body := soec_lines angles rows). assert (B : Forall no_newline body) by apply no_newline_soec_lines.
  assert (LB : List.length body = List.length angles) by (now apply length_soec_lines).
  assert (ROWS : forall i, i < List.length angles ->
      shows (nth i body "") (rounded 1 (nth i angles 0%R) :: map (rounded 4) (nth i rows [])) /\
      (forall j, j < 3 * per_plane name -> shows (field j 15 (nth i body "")) [rounded 4 (nth j (nth i rows []) 0%R)])).
  { intros i I. unfold body. rewrite nth_soec_lines by assumption.
    assert (D : narrow_degree (nth i angles 0%R)) by (rewrite Forall_forall in A; apply A, nth_In; lia).
    assert (W : List.length (nth i rows []) = 3 * per_plane name /\ Forall narrow (nth i rows [])) by (rewrite Forall_forall in F; apply F, nth_In; lia).
    destruct W as [W1 W2]. split; [now apply shows_soec_row|]. intros j J. rewrite soec_field by (assumption || lia). apply shows_cell.
    rewrite Forall_forall in W2. apply W2, nth_In. lia. }
  unfold is_polar_table. rewrite (soec_frame_lines _ name k u body K U B). unfold soec_frame, soec_space.
  eexists _, _, _, _, _, _, _, body. split; [reflexivity|]. split; [exact T|]. split; [reflexivity|]. split; [apply soec_head|].
  assert (PL : (forall p, p < 3 -> split (field (per_plane name * p) (15 * per_plane name) (center dw "" +++ concat_map (center (3 * per_plane name / 3 * vw)) directions)) = [nth p ["(xy)"; "(xz)"; "(yz)"] ""]) /\
    (forall j, j < 3 * per_plane name -> split (field j 15 (center dw "" +++ concat_map (fun _ : string => concat_map (center vw) (quantities k)) directions)) = word name j)).
  { clear - N K. cbn [polar_names In] in N. decompose [or False] N; subst name; injection K as <-; (split;
      [intros p H; do 3 (destruct p as [|p]; [vm_compute; reflexivity|]); lia
      |intros j H; do 9 (destruct j as [|j]; [vm_compute in H |- *; try reflexivity; lia|]); vm_compute in H; lia]). }
  destruct PL as [P1 P2]. split; [exact P1|]. split; [exact P2|]. split; [exact LB|exact ROWS].
Qed.

(** * What the export of a result file shows *)
(** The class dictionary after exporters were created for these files, in order. *)
Definition history (files : list h5) : list (string * dataset) := fold_left (fun data f => fst (soec_load f data)) files [].
(** Files written by elastic runs. *)
Definition elastic_result (f : h5) : Prop :=
  exists powell waves punit polar_run density C S avgs eigv, f = soec_file powell waves punit polar_run density C S avgs eigv.
(** The calculated values of a direction, without its angle. *)
Definition calculated (powell : (R -> R) -> R) (waves : plane -> nat -> list R) (name : string) (S : mat6) (pl : plane) (i : nat) : list R :=
  if String.eqb name "E" then tl (row_E S pl 360 i) else if String.eqb name "LC" then tl (row_LC S pl 360 i)
  else if String.eqb name "G" then tl (row_G powell S pl 360 i) else if String.eqb name "Nu" then tl (row_Nu powell S pl 360 i) else waves pl i.
Definition unit_written (punit name : string) : string :=
  match find name [("E", punit); ("G", punit); ("LC", "TPa^-1"); ("waves", "km s^-1"); ("Nu", "")] with Some u => u | None => "" end.

Lemma history_polar files : Forall elastic_result files -> polar_data (history files).
Proof.
  unfold history. assert (Z : polar_data []) by now left. revert Z. generalize (@nil (string * dataset)).
  induction files as [|f files IH]; intros data Z H; [exact Z|]. cbn [fold_left]. apply IH; [|now inversion H].
  inversion H as [|? ? (powell & waves & punit & polar_run & density & C & S & avgs & eigv & ->)]; subst. rewrite loaded. cbn [fst].
  now apply set_all.
Qed.
Lemma history_app files f : history (files ++ [f]) = fst (soec_load f (history files)).
Proof. unfold history. now rewrite fold_left_app. Qed.
Lemma history_chosen files powell waves punit polar_run density C S avgs eigv name : Forall elastic_result files ->
  In name (["E"; "LC"; "G"; "Nu"] ++ if has_waves polar_run density then ["waves"] else []) ->
  let D := run_dataset powell waves punit polar_run density S in
  chosen (history (files ++ [soec_file powell waves punit polar_run density C S avgs eigv])) name = [D name XY; D name XZ; D name YZ].
Proof.
  intros H N D. rewrite history_app, loaded. cbn [fst]. apply (set_all (has_waves polar_run density)); [now apply history_polar|exact N].
Qed.
Lemma angle i : SoecRunModel.degrees (linspace_2pi 360 i) = (360 * INR i / 359)%R.
Proof.
  unfold SoecRunModel.degrees, linspace_2pi. change (360 - 1) with 359. replace (INR 359) with 359%R by (rewrite INR_IZR_INZ; reflexivity).
  field. apply PI_neq0.
Qed.
Lemma calculated_table powell waves density S name pl : In name ["E"; "LC"; "G"; "Nu"] \/ name = "waves" /\ (0 < density)%R ->
  run_table powell waves true density S name pl = map (fun i => (360 * INR i / 359)%R :: calculated powell waves name S pl i) (seq 0 360).
Proof.
  intros N. unfold run_table, plane_tables, table. change nrad with 360.
  transitivity (map (fun i => SoecRunModel.degrees (linspace_2pi 360 i) :: calculated powell waves name S pl i) (seq 0 360)).
  - cbn [In] in N. decompose [or and False] N; subst name; try reflexivity. destruct (Rlt_dec 0 density); [reflexivity|lra].
  - apply map_ext. intros i. now rewrite angle.
Qed.
Lemma calculated_length powell waves name S pl i : In name polar_names -> (forall pl i, List.length (waves pl i) = 3) ->
  List.length (calculated powell waves name S pl i) = per_plane name.
Proof. intros N W. cbn [polar_names In] in N. decompose [or False] N; subst name; try reflexivity. apply W. Qed.
Lemma degree_narrow i : i < 360 -> narrow_degree (360 * INR i / 359).
Proof.
  intros H. unfold narrow_degree. assert (A : (0 <= INR i <= 359)%R).
  { split; [apply pos_INR|]. replace 359%R with (INR 359) by (rewrite INR_IZR_INZ; reflexivity). apply le_INR. lia. }
  lra.
Qed.

(** The file made for a name offered by the exporter shows the calculated values:
    the angles, then the columns of the xy, xz and yz planes. *)
Theorem C77_export files powell waves punit density C S avgs eigv name :
  Forall elastic_result files -> no_newline punit -> (forall pl i, List.length (waves pl i) = 3) ->
  let f := soec_file powell waves punit true density C S avgs eigv in
  In name (keys (snd (soec_load f (history files)))) ->
  (forall pl i, i < 360 -> Forall narrow (calculated powell waves name S pl i)) ->
  exists text, soec_export (history (files ++ [f])) name = Opened (text, Done) /\
    is_polar_table text name (unit_written punit name) (map (fun i => 360 * INR i / 359)%R (seq 0 360))
      (map (fun i => calculated powell waves name S XY i ++ calculated powell waves name S XZ i ++ calculated powell waves name S YZ i) (seq 0 360)).
Proof.
  intros H U W f N F. unfold f in N. rewrite loaded in N. cbn [snd keys] in N.
  assert (N1 : In name ["E"; "LC"; "G"; "Nu"] \/ name = "waves" /\ (0 < density)%R).
  { apply in_app_or in N. destruct N as [N|N]; [now left|right]. unfold has_waves in N. destruct (Rlt_dec 0 density); [|destruct N].
    destruct N as [<-|[]]. now split. }
  assert (N2 : In name polar_names) by (destruct N1 as [N1|[-> _]]; cbn [polar_names In] in *; tauto).
  pose proof (history_chosen files powell waves punit true density C S avgs eigv name H N) as CH. cbv zeta in CH.
  rewrite (three_planes (fun i => 360 * INR i / 359)%R (calculated powell waves name S) (seq 0 360) (unit_written punit name) (per_plane name)
    _ name (run_dataset powell waves punit true density S name)).
  - destruct (C77_table (map (fun i => 360 * INR i / 359)%R (seq 0 360))
      (map (fun i => calculated powell waves name S XY i ++ calculated powell waves name S XZ i ++ calculated powell waves name S YZ i) (seq 0 360))
      name (unit_written punit name) N2) as (text & E & T).
    + cbn [polar_names In] in N2. decompose [or False] N2; subst name; try exact U; reflexivity.
    + now rewrite !map_length.
    + apply Forall_forall. intros x X. apply in_map_iff in X. destruct X as (i & <- & I). apply in_seq in I. apply degree_narrow. lia.
    + apply Forall_forall. intros x X. apply in_map_iff in X. destruct X as (i & <- & I). apply in_seq in I. split.
      * rewrite !app_length, !calculated_length by assumption. lia.
      * rewrite !Forall_app. repeat split; apply F; lia.
    + exists text. now rewrite E.
  - intros E. apply (f_equal (@List.length nat)) in E. rewrite seq_length in E. discriminate E.
  - intros pl i. now apply calculated_length.
  - intros pl. unfold run_dataset. rewrite calculated_table by exact N1. f_equal.
    clear - N2. cbn [polar_names In] in N2. decompose [or False] N2; subst name; reflexivity.
  - exact CH.
Qed.
(** The names offered: the velocities only with a density. *)
Theorem C77_offered powell waves punit density C S avgs eigv data name :
  In name (keys (snd (soec_load (soec_file powell waves punit true density C S avgs eigv) data))) <->
  In name ["E"; "LC"; "G"; "Nu"] \/ name = "waves" /\ (0 < density)%R.
Proof.
  rewrite loaded. cbn [snd keys]. rewrite in_app_iff. unfold has_waves. destruct (Rlt_dec 0 density) as [D|D]; cbn [In]; intuition congruence.
Qed.

(** Only files with a description and a stiffness matrix are accepted; any other
    leaves the data of the exporters as they were. *)
Theorem C77_accepts f data :
  (error (snd (soec_load f data)) = None <-> info f <> None /\ In "stiffness" (map fst (datasets f))) /\
  (error (snd (soec_load f data)) <> None -> fst (soec_load f data) = data /\ keys (snd (soec_load f data)) = []).
Proof.
  assert (F : forall l, In "stiffness" (map fst l) <-> find "stiffness" l <> @None dataset).
  { induction l as [|[k d] l IH]; cbn [map fst In find]; [tauto|]. destruct (String.eqb "stiffness" k) eqn:E.
    - apply String.eqb_eq in E. split; [discriminate|]. now left.
    - apply String.eqb_neq in E. rewrite IH. split; [intros [X|X]; [congruence|exact X]|tauto]. }
  rewrite F. unfold soec_load. destruct (info f) as [i|]; [|cbn [snd fst error keys]; split; [split; [discriminate|intros [X _]; congruence]|now split]].
  destruct (find "stiffness" (datasets f)) as [d|]; cbn [snd fst error keys]; (split; [split|]); try congruence.
  - now split.
  - now intros [_ X].
  - now split.
Qed.

(** Without --polar the tables of zeros of the constructor are stored: every
    table, the velocities too (whatever the density), is offered and consists of
    one line of zeros at angle zero. *)
Theorem C77_no_polar_refuted files powell waves punit density C S avgs eigv name :
  Forall elastic_result files -> no_newline punit -> In name polar_names ->
  let f := soec_file powell waves punit false density C S avgs eigv in
  In name (keys (snd (soec_load f (history files)))) /\
  exists text, soec_export (history (files ++ [f])) name = Opened (text, Done) /\
    is_polar_table text name (unit_written punit name) [0%R] [repeat 0%R (3 * per_plane name)].
Proof.
  intros H U N f. unfold f. rewrite loaded. cbn [snd keys has_waves]. split; [cbn [polar_names In app] in N |- *; tauto|].
  pose proof (history_chosen files powell waves punit false density C S avgs eigv name H) as CH. cbv zeta in CH. cbn [has_waves] in CH.
  specialize (CH ltac:(cbn [polar_names In app] in N |- *; tauto)).
  assert (Z : narrow 0) by (unfold narrow; lra).
  rewrite (three_planes (fun _ : nat => 0%R) (fun _ _ => repeat 0%R (per_plane name)) [0] (unit_written punit name) (per_plane name)
    _ name (run_dataset powell waves punit false density S name)).
  - cbn [map]. destruct (C77_table [0%R] [repeat 0%R (3 * per_plane name)] name (unit_written punit name) N) as (text & E & T).
    + cbn [polar_names In] in N. decompose [or False] N; subst name; try exact U; reflexivity.
    + reflexivity.
    + constructor; [|constructor]. unfold narrow_degree. lra.
    + constructor; [|constructor]. split; [apply repeat_length|]. apply Forall_forall. intros x X. apply repeat_spec in X. now subst x.
    + exists text. split; [|exact T]. rewrite <- E. cbn [Nat.mul]. rewrite Nat.add_0_r, !repeat_app. reflexivity.
  - discriminate.
  - intros pl i. apply repeat_length.
  - intros pl. clear - N. cbn [polar_names In] in N. decompose [or False] N; subst name; reflexivity.
  - exact CH.
Qed.

(** Exporters share their data: one made for f1 exports the values of the file
    loaded last. *)
Theorem C77_exporters_mixed_refuted files1 files2 f name : Forall elastic_result files1 -> Forall elastic_result files2 -> elastic_result f ->
  In name (keys (snd (soec_load f []))) ->
  soec_export (history (files1 ++ [f])) name = soec_export (history (files2 ++ [f])) name.
Proof.
  intros H1 H2 (powell & waves & punit & polar_run & density & C & S & avgs & eigv & ->) N. rewrite loaded in N. cbn [snd keys] in N.
  unfold soec_export. fold (chosen (history (files1 ++ [soec_file powell waves punit polar_run density C S avgs eigv])) name).
  fold (chosen (history (files2 ++ [soec_file powell waves punit polar_run density C S avgs eigv])) name).
  now rewrite !history_chosen.
Qed.

(** A name for which the file has no dataset: an exception before the file is
    opened. *)
Theorem C77_nothing data name : (forall k d, In (k, d) data -> contains name k = false) -> soec_export data name = Unopened "UnboundLocalError".
Proof.
  intros H. unfold soec_export. replace (filter (fun kd : string * dataset => contains name (fst kd)) data) with (@nil (string * dataset)); [reflexivity|].
  induction data as [|[k d] data IH]; [reflexivity|]. cbn [filter fst]. rewrite (H k d) by (now left). apply IH. intros k' d' I. apply (H k' d'). now right.
Qed.

(** * Units *)
(** The compliances are stored as they are calculated, in inverse units of the
    stiffness (GPa), but labelled TPa^-1: read in that unit, they are not the
    inverse of the stiffness. *)
Definition inverse_matrix (C S : mat6) : Prop :=
  forall i j, i < 6 -> j < 6 -> fold_right Rplus 0%R (map (fun k => C i k * S k j)%R (seq 0 6)) = if i =? j then 1%R else 0%R.
Definition entry (d : dataset) (i j : nat) : R := nth j (nth i (matrix_of (values d)) []) 0%R.
Theorem C77_compliance_unit_refuted powell waves polar_run density C S avgs eigv : inverse_matrix C S ->
  exists c s, find "stiffness" (datasets (soec_file powell waves "GPa" polar_run density C S avgs eigv)) = Some c /\
    find "compliance" (datasets (soec_file powell waves "GPa" polar_run density C S avgs eigv)) = Some s /\
    unit_of c = "GPa" /\ unit_of s = "TPa^-1" /\
    inverse_matrix (entry c) (entry s) /\ ~ inverse_matrix (fun i j => entry c i j / 1000)%R (entry s).
Proof.
  intros I. exists {| values := matrix6 C; unit_of := "GPa" |}, {| values := matrix6 S; unit_of := "TPa^-1" |}.
  split; [reflexivity|]. split; [reflexivity|]. split; [reflexivity|]. split; [reflexivity|].
  assert (E : forall M u i j, i < 6 -> j < 6 -> entry {| values := matrix6 M; unit_of := u |} i j = M i j).
  { intros M u i j Hi Hj. do 6 (destruct i as [|i]; [do 6 (destruct j as [|j]; [reflexivity|]); lia|]). lia. }
  assert (P : inverse_matrix (entry {| values := matrix6 C; unit_of := "GPa" |}) (entry {| values := matrix6 S; unit_of := "TPa^-1" |})).
  { intros i j Hi Hj. rewrite <- (I i j Hi Hj). f_equal. apply map_ext_in. intros k K. apply in_seq in K. rewrite !E by lia. reflexivity. }
  split; [exact P|]. intros Q. specialize (P 0 0 ltac:(lia) ltac:(lia)). specialize (Q 0 0 ltac:(lia) ltac:(lia)).
  cbn [seq map fold_right Nat.eqb] in P, Q. lra.
Qed.

(** * Wide values *)
(** Ten digits before the point leave no blank: neighbouring values run together
    and the line can not be read. *)
Lemma fix_whole k z : (0 <= z)%Z -> fix_text k (IZR z) = print_fixed k (Z.to_N (z * 10 ^ Z.of_nat k)).
Proof.
  intros H. unfold fix_text, scaled. rewrite Rlt_bool_false by (now apply IZR_le). cbn [minus_or String.append]. do 2 f_equal.
  rewrite Rabs_pos_eq by (now apply IZR_le). rewrite <- pow_powerRZ, pow_IZR, <- mult_IZR. apply Znearest_imp. rewrite Rminus_diag_eq by reflexivity. rewrite Rabs_R0. lra.
Qed.
Theorem C77_wide_refuted : exists rows text, soec_write [0%R] 3 rows "E" "GPa" = (text, Done) /\
  rows = [[1000000000; 1000000000; 1000000000]]%R /\ numbers (nth 10 (lines text) "") = None.
Proof.
  eexists. eexists. split; [|split; [reflexivity|]].
  - rewrite (soec_written _ _ _ "E" "GPa" {| sdesc := "Young's modulus"; quantities := [""] |}) by reflexivity. reflexivity.
  - rewrite (soec_frame_lines 3 "E") by (reflexivity || apply no_newline_soec_lines).
    change (nth 10 _ "") with (soec_row 0 [1000000000; 1000000000; 1000000000]%R).
    unfold soec_row, soec_cell.
    cbn [concat_map fold_right].
    rewrite (fix_whole 1 0), (fix_whole 4 1000000000) by lia. vm_compute. reflexivity.
Qed.

(** * A concrete case *)
(** An isotropic crystal of bulk modulus 3 and shear modulus 1, with a density,
    loaded after a run without polar properties. *)
Definition flat_waves (pl : plane) (i : nat) : list R := [1; 1; 1.2]%R.
Definition first_value (f : R -> R) : R := f (PI / 2)%R.
Definition plain_file : h5 := soec_file first_value flat_waves "GPa" false 0 (isotropic_C 3 1) (isotropic_S 3 1) [] [].
Definition polar_file : h5 := soec_file first_value flat_waves "GPa" true 1000 (isotropic_C 3 1) (isotropic_S 3 1) [] [].
Lemma nth_map_seq {A} (f : nat -> A) n i d : i < n -> nth i (map f (seq 0 n)) d = f i.
Proof.
  intros I. rewrite (nth_indep _ d (f 0)) by (rewrite map_length, seq_length; exact I). rewrite map_nth, seq_nth by exact I. reflexivity.
Qed.
Example C77_instance : exists text text',
  soec_export (history [plain_file; polar_file]) "E" = Opened (text, Done) /\
  shows (nth 10 (lines text) "") [rounded 1 0; rounded 4 2.7; rounded 4 2.7; rounded 4 2.7]%R /\
  soec_export (history [plain_file; polar_file]) "waves" = Opened (text', Done) /\
  shows (nth 369 (lines text') "") (rounded 1 360%R :: map (rounded 4) [1; 1; 1.2; 1; 1; 1.2; 1; 1; 1.2]%R) /\
  soec_export (history [plain_file]) "waves" <> soec_export (history [plain_file; polar_file]) "waves".
Proof.
  assert (H : Forall elastic_result [plain_file]).
  { constructor; [|constructor]. unfold elastic_result, plain_file. repeat eexists. }
  assert (Y : forall pl i, calculated first_value flat_waves "E" (isotropic_S 3 1) pl i = [2.7%R]).
  { intros pl i. change (calculated first_value flat_waves "E" (isotropic_S 3 1) pl i) with
      [young_modulus (isotropic_S 3 1) (fst (cut_angles pl 360 i)) (snd (cut_angles pl 360 i))]. f_equal.
    replace 2.7%R with (young_textbook 3 1) by (unfold young_textbook; lra).
    apply (C29_isotropic 3 1 (isotropic_C 3 1) (isotropic_S 3 1) (fst (cut_angles pl 360 i)) (snd (cut_angles pl 360 i)) 0); try lra; try reflexivity. apply C29_instance. }
  assert (NE : forall name, In name ["E"; "waves"] -> In name (keys (snd (soec_load polar_file (history [plain_file]))))).
  { intros name N. apply C77_offered. cbn [In] in N |- *. destruct N as [<-|[<-|[]]]; [tauto|right; split; [reflexivity|lra]]. }
  destruct (C77_export [plain_file] first_value flat_waves "GPa" 1000 (isotropic_C 3 1) (isotropic_S 3 1) [] [] "E" H eq_refl (fun _ _ => eq_refl)
    (NE "E" (or_introl eq_refl))) as (text & E & T).
  { intros pl i _. rewrite Y. constructor; [|constructor]. unfold narrow. lra. }
  destruct (C77_export [plain_file] first_value flat_waves "GPa" 1000 (isotropic_C 3 1) (isotropic_S 3 1) [] [] "waves" H eq_refl (fun _ _ => eq_refl)
    (NE "waves" (or_intror (or_introl eq_refl)))) as (text' & E' & T').
  { intros pl i _. repeat constructor; unfold narrow; lra. }
  exists text, text'. split; [exact E|].
  destruct T as (title & unitline & top & head & planes & words & bar & body & L & _ & _ & _ & _ & _ & LB & V).
  destruct T' as (title' & unitline' & top' & head' & planes' & words' & bar' & body' & L' & _ & _ & _ & _ & _ & LB' & V').
  rewrite map_length, seq_length in LB, LB', V, V'.
  split; [|split; [exact E'|split]].
  - rewrite L. destruct (V 0 ltac:(lia)) as [V0 _]. rewrite !nth_map_seq in V0 by lia. rewrite !Y in V0. change (INR 0) with 0%R in V0.
    replace (360 * 0 / 359)%R with 0%R in V0 by lra.
    destruct body as [|b body]; [discriminate LB|]. exact V0.
  - rewrite L'. destruct (V' 359 ltac:(lia)) as [V0 _]. rewrite !nth_map_seq in V0 by lia.
    replace (360 * INR 359 / 359)%R with 360%R in V0 by (replace (INR 359) with 359%R by (rewrite INR_IZR_INZ; reflexivity); lra).
    rewrite app_nth2 by (cbn [List.length]; lia). change (369 - List.length _) with 359. rewrite app_nth1 by (rewrite LB'; lia). exact V0.
  - change (history [plain_file; polar_file]) with (history ([plain_file] ++ [polar_file])). unfold polar_file. rewrite E'. destruct (C77_no_polar_refuted [] first_value flat_waves "GPa" 0 (isotropic_C 3 1) (isotropic_S 3 1) [] [] "waves"
      (Forall_nil _) eq_refl ltac:(cbn; tauto)) as (_ & t & Z & (a1 & a2 & a3 & a4 & a5 & a6 & a7 & bd & L0 & _ & _ & _ & _ & _ & LB0 & _)).
    change (history [plain_file]) with (history ([] ++ [plain_file])). unfold plain_file. rewrite Z. intros Q.
    assert (Q' : t = text') by (injection Q; trivial). rewrite Q', L' in L0.
    apply (f_equal (@List.length string)) in L0. rewrite !app_length, LB', LB0 in L0. cbn [List.length] in L0. lia.
Qed.

Print Assumptions C77_table.
Print Assumptions C77_export.
Print Assumptions C77_offered.
Print Assumptions C77_accepts.
Print Assumptions C77_no_polar_refuted.
Print Assumptions C77_exporters_mixed_refuted.
Print Assumptions C77_nothing.
Print Assumptions C77_compliance_unit_refuted.
Print Assumptions C77_wide_refuted.
