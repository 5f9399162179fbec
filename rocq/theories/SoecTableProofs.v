From Coq Require Import Reals String Ascii List Bool Arith ZArith Lia Lra.
From Flocq Require Import Core.
From Verif Require Import Py DecimalModel DecimalProofs FormatModel FormatProofs YamlSpec QhaWriterProofs TableModel TableProofs TableProps StoreModel SymmetryModel TensorModel SoecRunModel SoecTableModel.
Import ListNotations.
Open Scope string_scope.
Open Scope list_scope.
Open Scope nat_scope.

(** * Fields of fixed width *)
Lemma substring_skip a n m b : substring (String.length a + n) m (a +++ b) = substring n m b.
Proof. induction a as [|c a IH]; [reflexivity|]. exact IH. Qed.
Lemma substring_take a b : substring 0 (String.length a) (a +++ b) = a.
Proof. induction a as [|c a IH]; [now destruct b|]. cbn [String.length String.append substring]. now rewrite IH. Qed.
Lemma field_at {A} (f : A -> string) w pre l j d rest : (forall x, In x l -> String.length (f x) = w) -> j < List.length l ->
  substring (String.length pre + w * j) w (pre +++ concat_map f l +++ rest) = f (nth j l d).
Proof.
  intros W J. rewrite substring_skip. revert j J. induction l as [|x l IH]; intros j J; cbn [List.length] in J; [lia|].
  cbn [concat_map fold_right]. rewrite append_assoc. destruct j as [|j].
  - rewrite Nat.mul_0_r. cbn [nth]. rewrite <- (W x (or_introl eq_refl)) at 1. apply substring_take.
  - replace (w * S j) with (String.length (f x) + w * j) by (rewrite (W x (or_introl eq_refl)); lia). rewrite substring_skip.
    cbn [nth]. apply IH; [|lia]. intros y Y. apply W. now right.
Qed.
Lemma concat_length {A} (f : A -> string) w l : (forall x, In x l -> String.length (f x) = w) -> String.length (concat_map f l) = w * List.length l.
Proof.
  induction l as [|x l IH]; intros W; cbn [concat_map fold_right List.length]; [cbn [String.length]; lia|].
  rewrite append_length. unfold concat_map in IH. rewrite IH by (intros; apply W; now right). rewrite (W x (or_introl eq_refl)). lia.
Qed.

(** * Cells *)
(** Values whose text leaves a blank in its field of 15. *)
Definition narrow (x : R) : Prop := (-99999999 <= x <= 999999999)%R.
Definition narrow_degree (x : R) : Prop := (-99999 <= x <= 999999)%R.
Lemma text_length k x m : 1 <= m -> (- (powerRZ 10 (Z.of_nat m) - 1) <= x <= powerRZ 10 (Z.of_nat (S m)) - 1)%R ->
  String.length (fix_text k x) <= S m + 1 + k.
Proof.
  intros M H. destruct (Rlt_bool_spec x 0) as [L|L].
  - pose proof (fix_length k x m) as F. destruct (Rlt_bool_spec x 0) in F; [|lra].
    assert (Rabs x <= powerRZ 10 (Z.of_nat m) - 1)%R as Y by (rewrite Rabs_left by lra; lra). specialize (F Y M). lia.
  - pose proof (fix_length k x (S m)) as F. destruct (Rlt_bool_spec x 0) in F; [lra|].
    assert (Rabs x <= powerRZ 10 (Z.of_nat (S m)) - 1)%R as Y by (rewrite Rabs_pos_eq by lra; lra). specialize (F Y ltac:(lia)). lia.
Qed.
Lemma cell_short x : narrow x -> String.length (fix_text 4 x) <= 14.
Proof. intros H. apply (text_length 4 x 8 ltac:(lia)). unfold narrow in H.
  change (Z.of_nat 8) with 8%Z. change (Z.of_nat 9) with 9%Z. unfold powerRZ. change (Pos.to_nat 8) with 8. change (Pos.to_nat 9) with 9. cbn [pow]. lra. Qed.
Lemma degree_short x : narrow_degree x -> String.length (fix_text 1 x) <= 9.
Proof. intros H. unfold narrow_degree in H. enough (String.length (fix_text 1 x) <= 6 + 1 + 1) by lia. apply (text_length 1 x 5 ltac:(lia)).
  change (Z.of_nat 5) with 5%Z. change (Z.of_nat 6) with 6%Z. unfold powerRZ. change (Pos.to_nat 5) with 5. change (Pos.to_nat 6) with 6. cbn [pow]. lra. Qed.
Lemma cell_length x : narrow x -> String.length (soec_cell x) = 15.
Proof. intros H. unfold soec_cell. apply center_length. pose proof (cell_short x H). unfold vw. lia. Qed.
Lemma center_shape w s : String.length s < w -> exists a b, center w s = spaces a +++ s +++ spaces (S b).
Proof.
  intros H. unfold center. set (p := w - String.length s). assert (0 < p) by (unfold p; lia).
  assert (p / 2 < p) by (apply Nat.div_lt; lia). exists (p / 2), (p - p / 2 - 1). now replace (S (p - p / 2 - 1)) with (p - p / 2) by lia.
Qed.
Lemma split_center w s rest : no_space s -> s <> "" -> String.length s < w -> split (center w s +++ rest) = s :: split rest.
Proof.
  intros N E H. destruct (center_shape w s H) as (a & b & ->). rewrite !append_assoc.
  change (spaces (S b) +++ rest) with (" " +++ spaces b +++ rest).
  rewrite <- (split_spaces (S b) rest). change (spaces (S b) +++ rest) with (String " " (spaces b +++ rest)).
  change (" " +++ spaces b +++ rest) with (spaces 0 +++ String " " (spaces b +++ rest)).
  apply split_piece; auto. right. eauto.
Qed.
Lemma fix_no_space k x : no_space (fix_text k x).
Proof. apply number_no_space, fix_chars. Qed.
Lemma split_cells row : Forall narrow row -> split (concat_map soec_cell row) = map (fix_text 4) row.
Proof.
  induction 1 as [|x row F _ IH]; [reflexivity|]. cbn [concat_map fold_right map]. unfold soec_cell at 1.
  rewrite split_center; [now f_equal|apply fix_no_space|apply fix_nonempty|]. pose proof (cell_short x F). unfold vw. lia.
Qed.
Lemma split_soec_row d row : narrow_degree d -> Forall narrow row -> split (soec_row d row) = fix_text 1 d :: map (fix_text 4) row.
Proof.
  intros D F. unfold soec_row. rewrite split_center; [now rewrite split_cells|apply fix_no_space|apply fix_nonempty|].
  pose proof (degree_short d D). unfold dw. lia.
Qed.
Lemma shows_soec_row d row : narrow_degree d -> Forall narrow row -> shows (soec_row d row) (rounded 1 d :: map (rounded 4) row).
Proof.
  intros D F. exists (fix_value 1 d :: map (fix_value 4) row). split.
  - unfold numbers. rewrite split_soec_row by assumption. cbn [map all_some]. rewrite parse_fix by lia. cbn [number_of].
    rewrite map_map. clear. induction row as [|x row IH]; [reflexivity|]. cbn [map all_some]. rewrite parse_fix by lia. cbn [number_of].
    destruct (all_some (map _ row)); [|discriminate]. now injection IH as ->.
  - constructor; [apply fix_rounded|]. clear. induction row; constructor; [apply fix_rounded|assumption].
Qed.

(** * Lines *)
Lemma no_newline_fix k x : no_newline (fix_text k x).
Proof. apply (number_imp (fun a => negb (Ascii.eqb a newline))); [|apply fix_chars]. apply ascii_cases. vm_compute. reflexivity. Qed.
Lemma no_newline_concat {A} (f : A -> string) l : (forall x, no_newline (f x)) -> no_newline (concat_map f l).
Proof. intros H. induction l as [|x l IH]; [reflexivity|]. cbn [concat_map fold_right]. apply no_newline_app; [apply H|exact IH]. Qed.
Lemma no_newline_soec_row d row : no_newline (soec_row d row).
Proof.
  unfold soec_row. apply no_newline_app; [apply no_newline_center, no_newline_fix|]. apply no_newline_concat.
  intros x. apply no_newline_center, no_newline_fix.
Qed.
Fixpoint soec_lines (degrees : list R) (value : list (list R)) : list string :=
  match degrees, value with d :: degrees, row :: value => soec_row d row :: soec_lines degrees value | _, _ => [] end.
Lemma soec_rows_written degrees value last : List.length degrees = List.length value ->
  soec_rows degrees value (last, Done) = (join_lines (soec_lines degrees value ++ [last]), Done).
Proof.
  revert value. induction degrees as [|d degrees IH]; intros [|row value] L; try discriminate L; [reflexivity|].
  cbn [soec_rows soec_lines app]. rewrite IH by now injection L. unfold put. cbn [fst snd].
  assert (X : exists a l, soec_lines degrees value ++ [last] = a :: l) by (destruct (soec_lines degrees value); cbn; eauto).
  destruct X as (a & l & ->). rewrite join_cons. unfold nl. rewrite append_assoc. reflexivity.
Qed.
Definition soec_frame (n : nat) (k : soec_kind) (u : string) (body : list string) : list string :=
  let (totw, dataw) := soec_space n in
  [file_header; ""; sdesc k; unit_line true u; ""; separator totw "+" "-"; soec_header dataw "Degrees" (sdesc k);
   center dw "" +++ concat_map (center (n / 3 * vw)) directions;
   center dw "" +++ concat_map (fun d => concat_map (center vw) (quantities k)) directions;
   separator totw "+" "="] ++ body ++ [separator totw "+" "="].
Lemma soec_written degrees n value name u k : soec_types name = Some k -> List.length degrees = List.length value ->
  soec_write degrees n value name u = (join_lines (soec_frame n k u (soec_lines degrees value)), Done).
Proof.
  intros K L. unfold soec_write, soec_frame. destruct (soec_space n) as [totw dataw]. rewrite K, soec_rows_written by exact L.
  unfold put, nl. cbn [fst snd app].
  assert (X : exists a l, soec_lines degrees value ++ [separator totw "+" "="] = a :: l) by (destruct (soec_lines degrees value); cbn; eauto).
  destruct X as (a & l & ->). rewrite !join_cons. f_equal. rewrite !append_assoc. reflexivity.
Qed.
Lemma soec_kind_lines name k : soec_types name = Some k -> no_newline (sdesc k) /\ Forall no_newline (quantities k) /\
  Forall (fun q => String.length q < 15 /\ no_space q) (quantities k).
Proof.
  unfold soec_types. repeat match goal with |- context [if String.eqb name ?s then _ else _] => destruct (String.eqb name s) end;
    intros E; try discriminate E; injection E as <-; cbn [sdesc quantities]; (split; [reflexivity|]); split;
    repeat match goal with |- Forall _ (_ :: _) => constructor | |- Forall _ [] => constructor end; try reflexivity; (split; [cbn; lia|reflexivity]).
Qed.
Lemma no_newline_soec_lines degrees value : Forall no_newline (soec_lines degrees value).
Proof. revert value. induction degrees as [|d degrees IH]; intros [|row value]; constructor; [apply no_newline_soec_row|apply IH]. Qed.
Lemma soec_frame_lines n name k u body : soec_types name = Some k -> no_newline u -> Forall no_newline body ->
  lines (join_lines (soec_frame n k u body)) = soec_frame n k u body.
Proof.
  intros K U B. destruct (soec_kind_lines name k K) as (D & Q & _).
  apply lines_join; unfold soec_frame; destruct (soec_space n) as [totw dataw]; [|discriminate].
  apply Forall_app. split; [|apply Forall_app; split; [exact B|constructor; [now apply no_newline_separator|constructor]]].
  repeat match goal with |- Forall _ (_ :: _) => constructor | |- Forall _ [] => constructor end; try reflexivity;
    try (now apply no_newline_separator); try (now apply no_newline_unit); try assumption.
  - unfold soec_header. apply no_newline_app; [reflexivity|]. apply no_newline_app; [now apply no_newline_center|].
    apply no_newline_app; [reflexivity|]. apply no_newline_app; [now apply no_newline_center|reflexivity].
  - apply no_newline_app; [now apply no_newline_center|].
    apply no_newline_app; [now apply no_newline_center|]. apply no_newline_app; [now apply no_newline_center|].
    apply no_newline_app; [now apply no_newline_center|reflexivity].
  - assert (X : no_newline (concat_map (center vw) (quantities k))).
    { induction Q as [|q l N _ IH]; [reflexivity|]. cbn [concat_map fold_right]. apply no_newline_app; [now apply no_newline_center|exact IH]. }
    apply no_newline_app; [now apply no_newline_center|]. apply no_newline_concat. intros _. exact X.
Qed.

(** * The dictionary of the exporters *)
Definition polar_list (names : list string) (D : string -> plane -> dataset) : list (string * dataset) :=
  flat_map (fun n => map (fun pl => ("polar_" +++ n +++ "_" +++ plane_name pl, D n pl)) [XY; XZ; YZ]) names.
Definition four : list string := ["E"; "G"; "LC"; "Nu"].
Definition five : list string := ["E"; "G"; "LC"; "Nu"; "waves"].
Definition stored_four : list string := ["E"; "LC"; "G"; "Nu"].
Definition stored_five : list string := ["E"; "LC"; "G"; "Nu"; "waves"].
Definition on_plane (names : list string) (D : string -> plane -> dataset) (pl : plane) : list (string * dataset) :=
  map (fun n => ("polar_" +++ n +++ "_" +++ plane_name pl, D n pl)) names.
Definition file_list (names : list string) (a b c d : dataset) (D : string -> plane -> dataset) : list (string * dataset) :=
  [("stiffness", a); ("compliance", b); ("averages", c); ("eigenvals", d)] ++ on_plane names D XY ++ on_plane names D XZ ++ on_plane names D YZ.
Lemma sorted_four a b c d D : filter (fun kd => contains "polar_" (fst kd)) (by_name (file_list stored_four a b c d D)) = polar_list four D.
Proof. vm_compute. reflexivity. Qed.
Lemma sorted_five a b c d D : filter (fun kd => contains "polar_" (fst kd)) (by_name (file_list stored_five a b c d D)) = polar_list five D.
Proof. vm_compute. reflexivity. Qed.

(** The tables of a run by name. *)
Definition find_table (name : string) (l : list (string * list (list R))) : list (list R) :=
  match find name l with Some t => t | None => [] end.
Definition run_table powell waves polar_run density S (name : string) (pl : plane) : list (list R) :=
  find_table name (plane_tables powell waves polar_run density S pl).
Definition run_dataset powell waves punit polar_run density S (name : string) (pl : plane) : dataset :=
  {| values := Mat (run_table powell waves polar_run density S name pl); unit_of := polar_unit punit name |}.
Definition has_waves (polar_run : bool) (density : R) : bool := if polar_run then if Rlt_dec 0 density then true else false else true.
Lemma plane_list powell waves punit polar_run density S pl :
  plane_datasets powell waves punit polar_run density S pl =
  on_plane (if has_waves polar_run density then stored_five else stored_four) (run_dataset powell waves punit polar_run density S) pl.
Proof.
  unfold plane_datasets, on_plane, run_dataset, run_table, has_waves, plane_tables.
  destruct polar_run; [destruct (Rlt_dec 0 density)|]; reflexivity.
Qed.
Lemma loaded powell waves punit polar_run density C S avgs eigv data :
  soec_load (soec_file powell waves punit polar_run density C S avgs eigv) data =
  (fold_left (fun l kd => dict_set (fst kd) (snd kd) l)
     (polar_list (if has_waves polar_run density then five else four) (run_dataset powell waves punit polar_run density S)) data,
   {| keys := ["E"; "LC"; "G"; "Nu"] ++ (if has_waves polar_run density then ["waves"] else []); error := None |}).
Proof.
  unfold soec_load, soec_file. cbn [info datasets]. rewrite !plane_list.
  set (D := run_dataset powell waves punit polar_run density S). clearbody D.
  match goal with |- context [find "stiffness" ?l] => change (find "stiffness" l) with (Some {| values := matrix6 C; unit_of := punit |}) end. cbv iota zeta.
  match goal with |- context [by_name ?l] =>
    replace (filter (fun kd => contains "polar_" (fst kd)) (by_name l)) with (polar_list (if has_waves polar_run density then five else four) D) end.
  - destruct (has_waves polar_run density); reflexivity.
  - destruct (has_waves polar_run density); symmetry; [apply sorted_five|apply sorted_four].
Qed.

Definition polar_data (data : list (string * dataset)) : Prop :=
  data = [] \/ (exists D, data = polar_list four D) \/ (exists D, data = polar_list five D).
Definition chosen (data : list (string * dataset)) (name : string) : list dataset :=
  map snd (filter (fun kd => contains name (fst kd)) data).
Lemma set_all (b : bool) D data : polar_data data ->
  let data' := fold_left (fun l kd => dict_set (fst kd) (snd kd) l) (polar_list (if b then five else four) D) data in
  polar_data data' /\ forall name, In name (stored_four ++ if b then ["waves"] else []) -> chosen data' name = [D name XY; D name XZ; D name YZ].
Proof.
  intros [->|[[D0 ->]|[D0 ->]]] data'; (split; [|intros name H; cbn [app stored_four In] in H; unfold data'; destruct b; cbn [In] in H; decompose [or False] H; subst name; vm_compute; reflexivity]).
  - unfold data'. right. destruct b; [right|left]; exists D; vm_compute; reflexivity.
  - unfold data'. right. destruct b; [right|left]; exists D; vm_compute; reflexivity.
  - unfold data'. right. right. destruct b; [exists D; vm_compute; reflexivity|].
    exists (fun n pl => if String.eqb n "waves" then D0 n pl else D n pl). vm_compute. reflexivity.
Qed.

(** * Three planes side by side *)
Lemma hstack_step m n d l m' : values d = Mat m' -> List.length m = List.length m' ->
  hstack m n (d :: l) = hstack (map (fun p => fst p ++ tl (snd p)) (combine m m')) (n + columns m') l.
Proof. intros E L. cbn [hstack]. rewrite E. cbn [matrix_of]. rewrite L, Nat.eqb_refl. reflexivity. Qed.
Lemma combine_map {A} (f g : A -> list R) l : map (fun p => fst p ++ tl (snd p)) (combine (map f l) (map g l)) = map (fun i => f i ++ tl (g i)) l.
Proof. induction l; [reflexivity|]. cbn [map combine fst snd]. now f_equal. Qed.
Lemma three_planes {A} (a : A -> R) (v : plane -> A -> list R) (l : list A) u k data name (t : plane -> dataset) :
  l <> [] -> (forall pl i, List.length (v pl i) = k) ->
  (forall pl, t pl = {| values := Mat (map (fun i => a i :: v pl i) l); unit_of := u |}) ->
  chosen data name = [t XY; t XZ; t YZ] ->
  soec_export data name = Opened (soec_write (map a l) (3 * k) (map (fun i => v XY i ++ v XZ i ++ v YZ i) l) name u).
Proof.
  intros N W T C. unfold soec_export. fold (chosen data name). rewrite C, !T. cbn [values matrix_of unit_of].
  assert (COL : forall pl, columns (map (fun i => a i :: v pl i) l) = k).
  { intros pl. destruct l as [|x l]; [congruence|]. cbn [map columns List.length]. rewrite W. lia. }
  rewrite map_map. cbn [tl].
  rewrite (hstack_step _ _ _ _ (map (fun i => a i :: v XZ i) l)) by (reflexivity || now rewrite !map_length).
  rewrite combine_map. cbn [tl].
  rewrite (hstack_step _ _ _ _ (map (fun i => a i :: v YZ i) l)) by (reflexivity || now rewrite !map_length).
  rewrite combine_map. cbn [tl hstack]. rewrite !COL, map_map. cbn [hd].
  replace (k + k + k) with (3 * k) by lia. f_equal. f_equal. apply map_ext. intros i. now rewrite app_assoc.
Qed.
