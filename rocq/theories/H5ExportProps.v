(** C90: the interactive exporter of result files. *)
From Coq Require Import Reals String Ascii List Bool Arith ZArith Lia Lra Permutation.
From Verif Require Import Py DecimalModel DecimalProofs FormatModel FormatProofs YamlSpec QhaWriterProofs ThermoModel TableModel TableProofs TableProps QhaRunModel StoreModel SoecTableModel H5Model H5Props.
Import ListNotations.
Open Scope string_scope.
Open Scope list_scope.
Open Scope nat_scope.

(** * What a table says *)
Definition table_says (text : string) (T : list R) (th : string) (y : list R) (yh : string) (m : list (list R)) (title u : string) (cell : R -> R -> Prop) : Prop :=
  exists top head ys bar body,
    lines text = ["*- This file was created using Quantas -*"; ""; title; "Data in " +++ u +++ " units"; ""; top; head; ys; bar] ++ body ++ [bar] /\
    head_says th yh head /\ shows ys (map (rounded 8) y) /\ List.length body = List.length T /\
    forall i, i < List.length T -> shows (nth i body "") (rounded 2 (nth i T 0%R) :: map cell (nth i m [])).
(** The precision of this exporter: 8 decimals for volumes, bulk moduli, their
    derivative and - because 'volumetric' contains 'volume' - for the thermal
    expansion; everything else with 12 digits after the first one. *)
Definition shown_as (name : string) (x v : R) : Prop :=
  if mem name ["VT"; "KT"; "KS"; "Kp"; "alphaV"] then rounded 8 x v else rounded_sig 12 x v.
Lemma table_ok T tu y yname yu m zname zu : y <> [] -> List.length m = List.length T -> Forall (fun r => List.length r = List.length y) m ->
  no_newline tu -> no_newline yu -> no_newline yname -> no_newline zname -> no_newline zu -> (style_of yname = Vtype \/ style_of yname = Ptype) ->
  let w := table_text T "Temperature" tu y yname yu (Mat m) zname zu in
  snd w = Done /\ table_says (fst w) T ("T (" +++ tu +++ ")") y (label_of yname yu) m zname zu (as_printed (style_of zname)).
Proof.
  intros Ny Lm Fm N1 N2 N3 N4 N5 Y8. cbv zeta. unfold table_text.
  set (kz := {| desc := zname; label := label_of zname; numstyle := style_of zname |}).
  set (ky := {| desc := yname; label := label_of yname; numstyle := style_of yname |}).
  set (kx := {| desc := "Temperature"; label := label_of "Temperature"; numstyle := style_of "Temperature" |}).
  assert (Hz : kind_of zname = Some kz) by reflexivity. assert (Hy : kind_of yname = Some ky) by reflexivity.
  assert (Hx : kind_of "Temperature" = Some kx) by reflexivity.
  split; [now rewrite (write_written _ _ _ _ _ _ _ _ _ _ _ _ _ _ Hz Hx Hy Ny Lm Fm)|].
  assert (L : no_newline (label ky yu)).
  { unfold ky, label, label_of. repeat match goal with |- context [if ?b then _ else _] => destruct b end;
      repeat (apply no_newline_app; [first [assumption|reflexivity]|]); first [assumption|reflexivity]. }
  assert (LX : no_newline (label kx tu)).
  { unfold kx, label, label_of. cbn. repeat (apply no_newline_app; [first [assumption|reflexivity]|]); first [assumption|reflexivity]. }
  unfold table_says.
  rewrite (lines_written kind_of false T "Temperature" tu y yname yu m zname zu kz kx ky Hz Hx Hy Ny Lm Fm N5 N4 LX L).
  unfold frame. destruct (calc_space (List.length y)) as [totw dataw].
  eexists _, _, _, _, _. split; [reflexivity|]. split; [apply head_ok|]. split; [|split].
  - eapply shows_weaken; [apply shows_axis|]. apply weaken_map. intros a v. unfold ky, numstyle. destruct Y8 as [-> | ->]; exact (fun H => H).
  - now apply row_lines_length.
  - intros i Hi. rewrite row_lines_nth by assumption. eapply shows_weaken; [apply shows_row|]. constructor; [intros v H; exact H|]. apply weaken_map. intros a v H; exact H.
Qed.

(** * Recognising the files *)
Lemma prefix_app sub a b : String.prefix sub a = true -> String.prefix sub (a +++ b) = true.
Proof.
  revert a. induction sub as [|c sub IH]; intros [|x a] H; [now destruct b|reflexivity|discriminate H|]. cbn [String.prefix String.append] in *.
  destruct (ascii_dec c x); [now apply IH|discriminate H].
Qed.
Lemma contains_l sub a b : contains sub a = true -> contains sub (a +++ b) = true.
Proof.
  induction a as [|x a IH]; intros H.
  - cbn [contains] in H. destruct (String.prefix sub "") eqn:E; [|discriminate H]. destruct sub; [now destruct b|discriminate E].
  - cbn [contains String.append] in *. destruct (String.prefix sub (String x a)) eqn:E.
    + apply (prefix_app _ _ b) in E. cbn [String.append] in E. now rewrite E.
    + destruct (String.prefix sub (String x (a +++ b))); [reflexivity|now apply IH].
Qed.
Lemma contains_r sub a b : contains sub b = true -> contains sub (a +++ b) = true.
Proof. induction a as [|x a IH]; intros H; [exact H|]. cbn [contains String.append]. destruct (String.prefix _ _); [reflexivity|now apply IH]. Qed.
Lemma prefix_nl sub a b : no_newline sub -> String.prefix sub (a +++ String newline b) = String.prefix sub a.
Proof.
  revert a. induction sub as [|c sub IH]; intros [|x a] N; try reflexivity; cbn [String.prefix String.append].
  - destruct (ascii_dec c newline) as [->|_]; [|reflexivity]. discriminate N.
  - destruct (ascii_dec c x); [|reflexivity]. apply IH. unfold no_newline in *. cbn [all_chars] in N. now apply andb_prop in N.
Qed.
Lemma contains_nl sub a b : sub <> "" -> no_newline sub -> contains sub (a +++ String newline b) = (contains sub a || contains sub b)%bool.
Proof.
  intros N1 N2. induction a as [|x a IH].
  - cbn [String.append]. cbn [contains]. pose proof (prefix_nl sub "" b N2) as E. cbn [String.append] in E. rewrite E.
    destruct sub; [contradiction|reflexivity].
  - cbn [String.append contains]. pose proof (prefix_nl sub (String x a) b N2) as E. cbn [String.append] in E. rewrite E.
    destruct (String.prefix sub (String x a)); [reflexivity|exact IH].
Qed.
Definition entry_line (kd : string * stored) : string := pad_left 15 (fst kd) +++ ": " +++ concat_map attribute_text (by_name (attributes (snd kd))).
Lemma contains_entries sub l : sub <> "" -> no_newline sub -> Forall (fun kd => contains sub (entry_line kd) = false) l -> contains sub (concat_map entry_text l) = false.
Proof.
  intros N1 N2. induction 1 as [|kd l E _ IH]; [cbn [concat_map fold_right contains]; now destruct sub|]. cbn [concat_map fold_right].
  replace (entry_text kd +++ fold_right (fun a s => entry_text a +++ s) "" l) with (entry_line kd +++ String newline (concat_map entry_text l)).
  - rewrite contains_nl, E by assumption. exact IH.
  - unfold entry_text, entry_line. rewrite !append_assoc. reflexivity.
Qed.
Lemma entry_plain k d u a : entry_line (k, with_attributes d u a) = pad_left 15 k +++ ": " +++ d +++ " " +++ "(" +++ u +++ ")".
Proof.
  unfold entry_line. cbn [snd fst with_attributes attributes]. change (by_name [("desc", d); ("unit", u)]) with [("desc", d); ("unit", u)].
  change (concat_map attribute_text [("desc", d); ("unit", u)]) with ((d +++ " ") +++ ("(" +++ u +++ ")") +++ ""). now rewrite append_nil, (append_assoc d).
Qed.
(** The file of a quasi-harmonic run is taken for one, whatever the job is called;
    temperatures and pressures are the variables of its tables. *)
Theorem C90_qha_recognised before filename s job T P r : exists listing,
  read_input before filename (qha_result_file s job T P r) =
    Ready {| source := qha_result_file s job T P r; listing := listing; outbase := CliModel.root filename; axes := Some ("T", "P") |}.
Proof.
  unfold read_input, read. cbn [about qha_result_file].
  set (rest := nl +++ _).
  assert (A : exists tail, qha_about s job +++ rest = ("" +++ String newline "This file was created with Quantas." +++ String newline "" +++ String newline "Job: Unknown" +++ String newline "" +++ String newline
    "It contains the results of the quasi-harmonic approximation (QHA)") +++ tail) by (eexists; reflexivity).
  destruct A as (tail & ->). rewrite (contains_l "This file was created with Quantas.") by reflexivity. unfold file_axes. rewrite (contains_l "(QHA)") by reflexivity.
  eexists. reflexivity.
Qed.
(** The file of a harmonic run is taken for one unless its job or its units say
    (QHA); temperatures and volumes are the variables. *)
Theorem C90_ha_recognised before filename s job x T r :
  contains "(QHA)" job = false -> contains "(QHA)" (funit s) = false ->
  In (eunit s) ["Ha"; "eV"; "Ry"] -> In (vunit s) ["A"; "bohr"] -> In (tunit s) ["K"; "C"] -> exists listing,
  read_input before filename (ha_result_file s job x T r) =
    Ready {| source := ha_result_file s job x T r; listing := listing; outbase := CliModel.root filename; axes := Some ("T", "V") |}.
Proof.
  intros J Fu Ue Uv Ut. unfold read_input, read. cbn [about ha_result_file].
  set (rest := concat_map entry_text _).
  match goal with |- context [contains "This file was created with Quantas." ?t] => set (text := t) end.
  assert (A : contains "This file was created with Quantas." text = true).
  { unfold text, ha_about. apply contains_l. cbn [join_lines]. apply (contains_r _ ("" +++ String newline "")).
    apply (contains_l _ "This file was created with Quantas."). reflexivity. }
  assert (Q : contains "(QHA)" text = false).
  { unfold text. change (nl +++ "Available data:" +++ nl +++ rest) with (String newline ("Available data:" +++ String newline rest)).
    rewrite !contains_nl by (discriminate || reflexivity). change (contains "(QHA)" "Available data:") with false.
    replace (contains "(QHA)" rest) with false.
    - cbn [orb]. rewrite orb_false_r. unfold ha_about. cbn [join_lines]. rewrite !contains_nl by (discriminate || reflexivity).
      change (contains "(QHA)" ("Job: " +++ job)) with (contains "(QHA)" job).
      change (contains "(QHA)" ("  - frequency scale: " +++ funit s)) with (contains "(QHA)" (funit s)). rewrite J, Fu.
      change (contains "(QHA)" ("  - energy scale: " +++ eunit s)) with (contains "(QHA)" (eunit s)).
      change (contains "(QHA)" ("  - volume scale: " +++ vunit s)) with (contains "(QHA)" (vunit s)).
      change (contains "(QHA)" ("  - temperature scale: " +++ tunit s)) with (contains "(QHA)" (tunit s)).
      replace (contains "(QHA)" (eunit s)) with false by (destruct Ue as [<-|[<-|[<-|[]]]]; reflexivity).
      replace (contains "(QHA)" (vunit s)) with false by (destruct Uv as [<-|[<-|[]]]; reflexivity).
      replace (contains "(QHA)" (tunit s)) with false by (destruct Ut as [<-|[<-|[]]]; reflexivity). reflexivity.
    - symmetry. apply contains_entries; [discriminate|reflexivity|]. eapply Permutation_Forall; [apply Permutation_sym, by_name_perm|].
      cbn [named ha_result_file]. unfold ha_unit.
      repeat match goal with |- Forall _ (_ :: _) => apply Forall_cons; [rewrite entry_plain|] | |- Forall _ [] => apply Forall_nil end;
        first [destruct Ue as [<-|[<-|[<-|[]]]]; vm_compute; reflexivity|destruct Uv as [<-|[<-|[]]]; vm_compute; reflexivity|destruct Ut as [<-|[<-|[]]]; vm_compute; reflexivity]. }
  assert (H : contains "(HA)" text = true).
  { unfold text, ha_about. apply contains_l. cbn [join_lines]. apply (contains_r _ ("" +++ String newline "")).
    match goal with |- contains _ (_ +++ String newline (_ +++ String newline (?x +++ String newline (_ +++ String newline ?t)))) = true =>
      apply (contains_r _ ("This file was created with Quantas." +++ String newline ("" +++ String newline "")));
      change (contains "(HA)" (x +++ String newline ("" +++ String newline t)) = true) end.
    rewrite !contains_nl by (discriminate || reflexivity).
    change (contains "(HA)" "It contains the results of the harmonic approximation (HA) calculations") with true. now rewrite !orb_true_r. }
  rewrite A. unfold file_axes. rewrite Q, H. eexists. reflexivity.
Qed.
(** ... but a job called after the other method is taken for the other kind of
    file, and nothing can be exported from it. *)
Lemma axis_missing f k : ~ In k (map fst (named f)) -> axis_of f k = inr "KeyError".
Proof. intros H. unfold axis_of. now rewrite (find_none _ _ H). Qed.
Theorem C90_ha_recognised_refuted before filename s x T r : exists session,
  read_input before filename (ha_result_file s "calcite (QHA)" x T r) = Ready session /\ axes session = Some ("T", "P") /\
  forall var file, export_data session var file = ([], Stopped "KeyError").
Proof.
  unfold read_input, read. cbn [about ha_result_file].
  match goal with |- context [contains "This file was created with Quantas." ?t] => set (text := t) end.
  assert (A : exists tail, text = ("" +++ String newline "This file was created with Quantas." +++ String newline "" +++ String newline "Job: calcite (QHA)") +++ tail) by (eexists; reflexivity).
  destruct A as (tail & ->). rewrite (contains_l "This file was created with Quantas.") by reflexivity. unfold file_axes. rewrite (contains_l "(QHA)") by reflexivity.
  eexists. split; [reflexivity|]. split; [reflexivity|]. intros var file. unfold export_data. cbn [axes source].
  rewrite (axis_missing _ "P"); [now destruct (axis_of _ "T") as [((? & ?) & ?)|]|].
  vm_compute. repeat (intros [H|H]; [discriminate H|revert H]). exact (fun H => H).
Qed.
(** Any other file of the program (its text says neither) can be opened, but an
    export ends in an AttributeError before anything is written. *)
Theorem C90_other_refuted filename f text session : read f = inl text -> contains "(QHA)" text = false -> contains "(HA)" text = false ->
  read_input None filename f = Ready session -> forall var file, export_data session var file = ([], Stopped "AttributeError").
Proof.
  intros E Q H R var file. unfold read_input in R. rewrite E in R. destruct (contains "This file" text) eqn:X0; [|].
  all: destruct (contains "This file was created with Quantas." text); [|discriminate R]; injection R as <-; unfold export_data; cbn [axes]; unfold file_axes; now rewrite Q, H.
Qed.
(** The text of a quasi-harmonic file never tells the job: *)
Theorem C90_job_refuted s job job' T P r :
  qha_result_file s job T P r = qha_result_file s job' T P r /\ exists a b, qha_about s job = a +++ String newline "Job: Unknown" +++ String newline b.
Proof. split; [reflexivity|]. exists ("" +++ String newline "This file was created with Quantas." +++ String newline ""). eexists. reflexivity. Qed.

(** * One array *)
Definition qha_session (listing base : string) (s : settings) (job : string) (T P : list R) (r : results) : session :=
  {| source := qha_result_file s job T P r; listing := listing; outbase := base; axes := Some ("T", "P") |}.
Lemma qha_named s job T P r : map fst (named (qha_result_file s job T P r)) = "T" :: "P" :: qha_names.
Proof. reflexivity. Qed.
Lemma qha_unique s job T P r : unique (qha_result_file s job T P r).
Proof.
  unfold unique. rewrite qha_named. assert (D : nodup string_dec ("T" :: "P" :: qha_names) = "T" :: "P" :: qha_names) by (vm_compute; reflexivity).
  rewrite <- D. apply NoDup_nodup.
Qed.
(** What is exported from a quasi-harmonic file for a property. *)
Definition qha_table (s : settings) (T P : list R) (r : results) (name text : string) : Prop :=
  exists f u, property r name = Some f /\ find name (stored_units s) = Some u /\
    table_says text T ("T (" +++ tunit s +++ ")") P ("Pressure (" +++ punit s +++ ")") (table_rows (List.length T) (List.length P) f) (qha_description name) u (shown_as name).
Lemma qha_style name a v : In name qha_names -> as_printed (style_of (qha_description name)) a v -> shown_as name a v.
Proof. intros H. repeat (destruct H as [<-|H]; [intros E; exact E|]). destruct H. Qed.
Lemma qha_title name : In name qha_names -> no_newline (qha_description name).
Proof. intros H. repeat (destruct H as [<-|H]; [reflexivity|]). destruct H. Qed.
Lemma property_in r name : In name qha_names -> exists f, property r name = Some f /\ In (name, f) (qha_properties r).
Proof. intros H. repeat (destruct H as [<-|H]; [eexists; split; [reflexivity|simpl; tauto]|]). destruct H. Qed.
Lemma unit_in s name : In name qha_names -> find name (stored_units s) = Some (qha_unit s name).
Proof. intros H. repeat (destruct H as [<-|H]; [reflexivity|]). destruct H. Qed.
Section Qha.
Variables (listing base : string) (s : settings) (job : string) (T P : list R) (r : results).
Hypothesis NT : T <> [].
Hypothesis NP : P <> [].
Hypothesis U : Forall no_newline [eunit s; vunit s; tunit s; punit s].
Let sess := qha_session listing base s job T P r.
Lemma unit_line_ok name : In name qha_names -> no_newline (qha_unit s name).
Proof.
  intros _. assert (UN : forall w, In w [eunit s; vunit s; tunit s; punit s] -> no_newline w) by now apply Forall_forall.
  unfold qha_unit. repeat match goal with |- context [if ?b then _ else _] => destruct b end; try reflexivity; try (apply UN; simpl; tauto).
  apply no_newline_app; [reflexivity|apply UN; simpl; tauto].
Qed.
Lemma export_property name file : In name qha_names -> exists text,
  export_data sess name file = ([Writes file text; Shows "Results exported correctly!"], Returned) /\ qha_table s T P r name text.
Proof.
  intros H. destruct (property_in r name H) as (f & E & I).
  assert (UN : forall w, In w [eunit s; vunit s; tunit s; punit s] -> no_newline w) by now apply Forall_forall.
  set (d := with_attributes (qha_description name) (qha_unit s name) (array_of (List.length T) (List.length P) f)).
  assert (D : In (name, d) (named (qha_result_file s job T P r))).
  { cbn [qha_result_file named]. right. right. apply in_map_iff. now exists (name, f). }
  pose proof (find_in _ _ _ (qha_unique s job T P r) D) as E1.
  destruct (table_rows_shape (List.length T) (List.length P) f) as (L & Fm).
  pose proof (table_ok T (tunit s) P "Pressure" (punit s) (table_rows (List.length T) (List.length P) f) (qha_description name) (qha_unit s name) NP L Fm
    ltac:(apply UN; simpl; tauto) ltac:(apply UN; simpl; tauto) eq_refl (qha_title _ H) (unit_line_ok _ H) (or_intror eq_refl)) as (A & B).
  exists (fst (table_text T "Temperature" (tunit s) P "Pressure" (punit s) (Mat (table_rows (List.length T) (List.length P) f)) (qha_description name) (qha_unit s name))).
  split.
  - unfold export_data, sess. cbn [axes qha_session source]. change (axis_of (qha_result_file s job T P r) "T") with (@inl (list R * string * string) string (T, "Temperature", tunit s)).
    change (axis_of (qha_result_file s job T P r) "P") with (@inl (list R * string * string) string (P, "Pressure", punit s)).
    rewrite E1. destruct (C90_attribute _ name (qha_unique s job T P r)) as (X & _).
    assert (ND : NoDup (map fst (attributes d))) by (cbn; repeat constructor; simpl; intuition discriminate).
    rewrite (X d "desc" (qha_description name) D ND ltac:(simpl; tauto)), (X d "unit" (qha_unit s name) D ND ltac:(simpl; tauto)).
    cbn [content d with_attributes]. rewrite array_rows. fold (table_rows (List.length T) (List.length P) f). destruct (table_text _ _ _ _ _ _ _ _ _) as [t o]. cbn [snd fst] in *. now rewrite A.
  - exists f, (qha_unit s name). split; [exact E|]. split; [now apply unit_in|].
    destruct B as (top & head & ys & bar & body & B1 & B2 & B3 & B4 & B5). exists top, head, ys, bar, body. repeat split; try assumption.
    intros i Hi. eapply shows_weaken; [apply (B5 i Hi)|]. constructor; [intros v Hv; exact Hv|]. apply weaken_map. intros a v. now apply qha_style.
Qed.
(** A variable itself cannot be written as a table. *)
Lemma export_axis name file : In name ["T"; "P"] -> exists text, export_data sess name file = ([Writes file text], Stopped "IndexError").
Proof.
  intros H. assert (ET : exists t T', T = t :: T') by (clear - NT; destruct T as [|t T']; [contradiction|eauto]). destruct ET as (t & T' & ET).
  assert (X : exists v, In (name, with_attributes (if String.eqb name "T" then "Temperature" else "Pressure") (if String.eqb name "T" then tunit s else punit s) (Vec v)) (named (qha_result_file s job T P r))).
  { destruct H as [<-|[<-|[]]]; eexists; [left|right; left]; reflexivity. }
  destruct X as (v & D). pose proof (find_in _ _ _ (qha_unique s job T P r) D) as E1.
  unfold export_data, sess. cbn [axes qha_session source]. change (axis_of (qha_result_file s job T P r) "T") with (@inl (list R * string * string) string (T, "Temperature", tunit s)).
  change (axis_of (qha_result_file s job T P r) "P") with (@inl (list R * string * string) string (P, "Pressure", punit s)).
  rewrite E1. destruct (C90_attribute _ name (qha_unique s job T P r)) as (X & _).
  match type of D with In (_, ?dd) _ => assert (ND : NoDup (map fst (attributes dd))) by (cbn; repeat constructor; simpl; intuition discriminate);
    rewrite (X dd "desc" _ D ND ltac:(left; reflexivity)), (X dd "unit" _ D ND ltac:(right; left; reflexivity)) end.
  cbn [content with_attributes]. unfold table_text. rewrite ET.
  destruct (C63_vector_fails kind_of false t T' "Temperature" (tunit s) P "Pressure" (punit s) v
    (if String.eqb name "T" then "Temperature" else "Pressure") (if String.eqb name "T" then tunit s else punit s) _ _ _ eq_refl eq_refl eq_refl NP) as (A & _).
  destruct (write _ _ _ _ _ _ _ _ _ _ _) as [txt o]. cbn [snd] in A. subst o. eexists. reflexivity.
Qed.
Lemma export_unknown name file : ~ In name ("T" :: "P" :: qha_names) -> export_data sess name file = ([], Stopped "KeyError").
Proof.
  intros H. unfold export_data, sess. cbn [axes qha_session source].
  change (axis_of (qha_result_file s job T P r) "T") with (@inl (list R * string * string) string (T, "Temperature", tunit s)).
  change (axis_of (qha_result_file s job T P r) "P") with (@inl (list R * string * string) string (P, "Pressure", punit s)).
  now rewrite (find_none name (named (qha_result_file s job T P r))) by now rewrite qha_named.
Qed.
End Qha.

(** * The dialogue *)
Definition saved (l : list event) : list (string * string) := flat_map (fun e => match e with Writes f t => [(f, t)] | _ => [] end) l.
Lemma saved_app a b : saved (a ++ b) = saved a ++ saved b.
Proof. unfold saved. apply flat_map_app. Qed.
(** What a user types to save some arrays: help as often as wanted, the name of an
    array, the name of a file (empty: the one offered), unclear answers to the
    question whether to go on, a clear one; [quit] ends it too. *)
Definition unclear (w : string) : Prop := w <> "" /\ lower w <> "n" /\ lower w <> "y".
Inductive talk (known : string -> Prop) : list string -> list (string * string) -> Prop :=
| Quits w : lower w = "quit" -> talk known [w] []
| Helps w l saves : lower w = "help" -> talk known l saves -> talk known (w :: l) saves
| Last v file noise no : known v -> Forall unclear noise -> no = "" \/ lower no = "n" -> talk known (v :: file :: noise ++ [no]) [(v, file)]
| More v file noise yes l saves : known v -> Forall unclear noise -> lower yes = "y" -> talk known l saves -> talk known (v :: file :: noise ++ yes :: l) ((v, file) :: saves).
Definition destination (base v file : string) : string := if String.eqb file "" then base +++ "_" +++ v +++ ".dat" else file.
Lemma has_truthy f t : truthy (has_data f t) = true.
Proof. unfold has_data, has_dataset. now destruct (find t (named f)). Qed.
Lemma noise_skips s noise l : Forall unclear noise -> exists ev, saved ev = [] /\ dialogue s Continuing (noise ++ l) = tell ev (dialogue s Continuing l).
Proof.
  induction 1 as [|w noise (W1 & W2 & W3) _ (ev & S0 & IH)]; [exists []; split; [reflexivity|]; unfold tell; cbn [app]; now destruct (dialogue s Continuing l)|].
  exists (more_question :: ev). split; [exact S0|]. cbn [app dialogue]. apply String.eqb_neq in W1, W2, W3. rewrite W1, W2, W3. cbn [orb]. rewrite IH. reflexivity.
Qed.
Lemma choose s v file l : lower v <> "help" -> lower v <> "quit" -> exists ev, saved ev = [] /\
  dialogue s Choosing (v :: file :: l) = tell ev (dialogue s (Naming v) (file :: l)).
Proof.
  intros H1 H2. eexists. split; [|cbn [dialogue]; apply String.eqb_neq in H1, H2; rewrite H1, H2, has_truthy; cbn [negb]; reflexivity]. reflexivity.
Qed.
Section Talk.
Variables (s : session) (known : string -> Prop) (good : string -> string -> Prop).
Hypothesis word : forall v, known v -> lower v <> "help" /\ lower v <> "quit".
Hypothesis exports : forall v file, known v -> exists text, export_data s v file = ([Writes file text; Shows "Results exported correctly!"], Returned) /\ good v text.
Lemma naming v file l : known v -> exists ev text, saved ev = [(destination (outbase s) v file, text)] /\ good v text /\
  dialogue s (Naming v) (file :: l) = tell ev (dialogue s Continuing l).
Proof.
  intros H. cbn [dialogue]. destruct (exports v (if String.eqb file "" then default_file s v else file) H) as (text & -> & G).
  eexists _, text. split; [|split; [exact G|reflexivity]]. cbn [saved flat_map app]. unfold destination, default_file. f_equal.
Qed.
Lemma talk_saves typed saves : talk known typed saves ->
  snd (dialogue s Choosing typed) = Returned /\
  Forall2 (fun vf nt => fst nt = destination (outbase s) (fst vf) (snd vf) /\ good (fst vf) (snd nt)) saves (saved (fst (dialogue s Choosing typed))).
Proof.
  induction 1 as [w Hw|w l saves Hw _ (IH1 & IH2)|v file noise no Hv Hn Ho|v file noise yes l saves Hv Hn Hy _ (IH1 & IH2)].
  - cbn [dialogue]. rewrite Hw. split; [reflexivity|constructor].
  - cbn [dialogue]. rewrite Hw. change (String.eqb "help" "help") with true. cbn iota. unfold tell. cbn [fst snd]. split; [exact IH1|]. exact IH2.
  - destruct (word v Hv) as (W1 & W2). destruct (choose s v file (noise ++ [no]) W1 W2) as (e1 & S1 & ->). destruct (naming v file (noise ++ [no]) Hv) as (e2 & text & S2 & G & ->).
    destruct (noise_skips s noise [no] Hn) as (e3 & S3 & ->). unfold tell. cbn [fst snd]. rewrite !saved_app, S1, S2, S3. cbn [app dialogue].
    replace (String.eqb no "" || String.eqb (lower no) "n")%bool with true by (symmetry; destruct Ho as [-> | ->]; [reflexivity|apply orb_true_r]).
    cbn [fst snd saved flat_map]. split; [reflexivity|]. constructor; [|constructor]. cbn [fst snd]. now split.
  - destruct (word v Hv) as (W1 & W2). destruct (choose s v file (noise ++ yes :: l) W1 W2) as (e1 & S1 & ->). destruct (naming v file (noise ++ yes :: l) Hv) as (e2 & text & S2 & G & ->).
    destruct (noise_skips s noise (yes :: l) Hn) as (e3 & S3 & ->). unfold tell at 1 2 3. cbn [fst snd].
    assert (Y : dialogue s Continuing (yes :: l) = tell menu (dialogue s Choosing l)).
    { cbn [dialogue]. rewrite Hy. replace (String.eqb yes "") with false by (symmetry; apply String.eqb_neq; intros ->; discriminate Hy). reflexivity. }
    rewrite Y. unfold tell. cbn [fst snd]. rewrite !saved_app, S1, S2, S3. change (saved menu) with (@nil (string * string)). cbn [app].
    split; [exact IH1|]. constructor; [|exact IH2]. cbn [fst snd]. now split.
Qed.
End Talk.
(** Saving properties of a quasi-harmonic file: the dialogue ends normally, and one
    file is written for each property asked for, in that order, under the name
    typed (or the name offered), holding that property's table. *)
Theorem C90_dialogue listing base s job T P r typed saves : T <> [] -> P <> [] -> Forall no_newline [eunit s; vunit s; tunit s; punit s] ->
  talk (fun v => In v qha_names) typed saves ->
  let out := run (qha_session listing base s job T P r) typed in
  snd out = Returned /\
  Forall2 (fun vf nt => fst nt = destination base (fst vf) (snd vf) /\ qha_table s T P r (fst vf) (snd nt)) saves (saved (fst out)).
Proof.
  intros NT NP U K. cbv zeta.
  destruct (talk_saves (qha_session listing base s job T P r) (fun v => In v qha_names) (qha_table s T P r)
    ltac:(intros v H; repeat (destruct H as [<-|H]; [split; discriminate|]); destruct H)
    ltac:(intros v file H; now apply export_property) typed saves K) as (A & B).
  unfold run, tell. cbn [fst snd]. rewrite saved_app. split; [exact A|exact B].
Qed.
(** Whatever is typed: every file written is the complete table of a property,
    except that choosing a variable leaves a cut off table and ends the session. *)
Definition any_saved (base : string) (good : string -> string -> Prop) (nt : string * string) : Prop :=
  exists v file, fst nt = destination base v file /\ good v (snd nt).
Definition orderly (e : ending) : Prop := e = Returned \/ e = Stopped "EOFError" \/ e = Stopped "KeyError".
Theorem C90_any_dialogue listing base s job T P r typed : T <> [] -> P <> [] -> Forall no_newline [eunit s; vunit s; tunit s; punit s] ->
  let out := run (qha_session listing base s job T P r) typed in
  exists complete cut, saved (fst out) = complete ++ cut /\ Forall (any_saved base (fun v text => In v qha_names /\ qha_table s T P r v text)) complete /\
    (orderly (snd out) /\ cut = [] \/ snd out = Stopped "IndexError" /\ List.length cut = 1).
Proof.
  intros NT NP U. cbv zeta. set (sess := qha_session listing base s job T P r).
  assert (M : forall typed at_, exists complete cut, saved (fst (dialogue sess at_ typed)) = complete ++ cut /\
    Forall (any_saved base (fun v text => In v qha_names /\ qha_table s T P r v text)) complete /\
    (orderly (snd (dialogue sess at_ typed)) /\ cut = [] \/ snd (dialogue sess at_ typed) = Stopped "IndexError" /\ List.length cut = 1)).
  { clear typed. intros typed. induction typed as [|t typed IH]; intros at_.
    { exists [], []. cbn. repeat split; [constructor|]. left. split; [right; now left|reflexivity]. }
    assert (Q : exists complete cut, @nil (string * string) = complete ++ cut /\ Forall (any_saved base (fun v text => In v qha_names /\ qha_table s T P r v text)) complete /\
       (orderly Returned /\ cut = [] \/ Returned = Stopped "IndexError" /\ List.length cut = 1)).
    { exists [], []. repeat split; [constructor|]. left. split; [now left|reflexivity]. }
    assert (W : forall ev a, saved ev = [] -> exists complete cut, saved (fst (tell ev (dialogue sess a typed))) = complete ++ cut /\
      Forall (any_saved base (fun v text => In v qha_names /\ qha_table s T P r v text)) complete /\
      (orderly (snd (tell ev (dialogue sess a typed))) /\ cut = [] \/ snd (tell ev (dialogue sess a typed)) = Stopped "IndexError" /\ List.length cut = 1)).
    { intros ev a S0. destruct (IH a) as (c & k & A & B & C). exists c, k. unfold tell. cbn [fst snd]. rewrite saved_app, S0. repeat split; assumption. }
    destruct at_ as [|v|]; cbn [dialogue].
    - destruct (String.eqb (lower t) "help"); [now apply W|]. destruct (String.eqb (lower t) "quit"); [exact Q|]. rewrite has_truthy. cbn [negb]. now apply W.
    - set (file := if String.eqb t "" then default_file sess v else t).
      destruct (in_dec string_dec v qha_names) as [I|I]; [|destruct (in_dec string_dec v ["T"; "P"]) as [J|J]].
      + destruct (export_property listing base s job T P r NP U v file I) as (text & E & G). fold sess in E. rewrite E.
        destruct (IH Continuing) as (c & k & A & B & C). exists ((file, text) :: c), k. unfold tell. cbn [fst snd]. rewrite !saved_app. cbn [saved flat_map app].
        change (flat_map _ _) with (saved (fst (dialogue sess Continuing typed))). rewrite A. repeat split; [|exact C]. constructor; [|exact B].
        exists v, t. split; [reflexivity|]. now split.
      + destruct (export_axis listing base s job T P r NT NP v file J) as (text & E). fold sess in E. rewrite E. exists [], [(file, text)]. repeat split; [constructor|]. right. now split.
      + pose proof (export_unknown listing base s job T P r v file) as E. fold sess in E. rewrite E.
        * exists [], []. repeat split; [constructor|]. left. split; [right; now right|reflexivity].
        * intros [X|[X|X]]; [apply J; now left|apply J; right; now left|now apply I].
    - destruct (String.eqb t "" || String.eqb (lower t) "n")%bool; [exact Q|]. destruct (String.eqb (lower t) "y"); now apply W. }
  destruct (M typed Choosing) as (c & k & A & B & C). exists c, k. unfold run, tell. cbn [fst snd]. rewrite saved_app. repeat split; assumption.
Qed.
(** A name that is not in the file: the error message prepared for it is never
    shown, whatever is typed; the session ends in a KeyError instead, after
    asking for a file name and without writing anything. *)
Theorem C90_unknown_refuted :
  (forall s typed, String.prefix "Error" (listing s) = false -> Forall (fun e => forall m, e <> Shows ("Error: " +++ m)) (fst (run s typed))) /\
  (forall listing base s job T P r v file rest, ~ In v ("T" :: "P" :: qha_names) -> lower v <> "help" -> lower v <> "quit" ->
     let out := run (qha_session listing base s job T P r) (v :: file :: rest) in snd out = Stopped "KeyError" /\ saved (fst out) = []).
Proof.
  split.
  - intros s typed L. unfold run. assert (M0 : Forall (fun e => forall m, e <> Shows ("Error: " +++ m)) menu) by (repeat constructor; discriminate).
    unfold tell. cbn [fst]. apply Forall_app. split; [exact M0|].
    assert (X : forall var file, Forall (fun e => forall m, e <> Shows ("Error: " +++ m)) (fst (export_data s var file))).
    { intros var file. unfold export_data. destruct (axes s) as [(x1 & x2)|]; [|constructor]. destruct (axis_of _ x1) as [((? & ?) & ?)|]; [|constructor].
      destruct (axis_of _ x2) as [((? & ?) & ?)|]; [|constructor]. destruct (find var _); [|constructor]. destruct (get_attribute _ var "desc"); try constructor.
      destruct (get_attribute _ var "unit"); try constructor. destruct (table_text _ _ _ _ _ _ _ _ _) as [t [|e]]; cbn [fst]; repeat constructor; discriminate. }
    generalize Choosing as at_. induction typed as [|t typed IH]; intros at_; [constructor|]. destruct at_ as [|v|]; cbn [dialogue].
    + destruct (String.eqb (lower t) "help").
      { unfold tell. cbn [fst]. apply Forall_app. split; [|apply IH]. constructor; [|exact M0]. intros m E. injection E as E. rewrite E in L. discriminate L. }
      destruct (String.eqb (lower t) "quit"); [constructor|]. rewrite has_truthy. cbn [negb]. unfold tell. cbn [fst]. apply Forall_app. split; [repeat constructor; discriminate|apply IH].
    + specialize (X v (if String.eqb t "" then default_file s v else t)). destruct (export_data s v _) as [l [|e]]; [|exact X]. cbn [fst] in X.
      unfold tell. cbn [fst]. rewrite <- app_assoc. apply Forall_app. split; [exact X|]. apply Forall_app. split; [repeat constructor; discriminate|apply IH].
    + destruct (String.eqb t "" || String.eqb (lower t) "n")%bool; [constructor|]. destruct (String.eqb (lower t) "y"); unfold tell; cbn [fst]; apply Forall_app; (split; [|apply IH]); [exact M0|repeat constructor; discriminate].
  - intros listing base s job T P r v file rest N H1 H2. cbv zeta. unfold run. destruct (choose (qha_session listing base s job T P r) v file rest H1 H2) as (ev & S0 & ->).
    unfold tell at 1 2 3. cbn [fst snd]. cbn [dialogue]. rewrite (export_unknown listing base s job T P r v _ N).
    unfold tell. cbn [fst snd]. rewrite !saved_app, S0. now split.
Qed.
(** Thermal expansions below 5e-9 are exported as zero (the tables of the export
    command show 12 digits, C63). *)
Theorem C90_expansion_refuted listing base s job T P r file :
  T <> [] -> P <> [] -> Forall no_newline [eunit s; vunit s; tunit s; punit s] -> (forall i j, Rabs (alphaV r i j) < 5 / 10 ^ 9)%R ->
  exists text, export_data (qha_session listing base s job T P r) "alphaV" file = ([Writes file text; Shows "Results exported correctly!"], Returned) /\
  forall i, i < List.length T -> exists t, numbers (nth (9 + i) (lines text) "") = Some (t :: repeat 0%R (List.length P)).
Proof.
  intros NT NP U S0. destruct (export_property listing base s job T P r NP U "alphaV" file ltac:(simpl; tauto)) as (text & E & f & u & E1 & E2 & G).
  exists text. split; [exact E|]. intros i Hi. destruct G as (top & head & ys & bar & body & B1 & B2 & B3 & B4 & B5). rewrite B1.
  assert (X : nth (9 + i) (["*- This file was created using Quantas -*"; ""; qha_description "alphaV"; "Data in " +++ u +++ " units"; ""; top; head; ys; bar] ++ body ++ [bar]) "" = nth i body "").
  { rewrite app_nth2 by (cbn [List.length]; lia). cbn [List.length]. replace (9 + i - 9) with i by lia. rewrite app_nth1 by lia. reflexivity. }
  rewrite X. destruct (B5 i Hi) as (vs & N & Fv). rewrite N. inversion Fv as [|c v cs vs' Hc Fr Ec Ev]; subst.
  exists v. do 2 f_equal. injection E1 as <-.
  assert (Row : nth i (table_rows (List.length T) (List.length P) (alphaV r)) [] = map (alphaV r i) (seq 0 (List.length P))).
  { unfold table_rows. rewrite (nth_indep _ [] ((fun i => map (alphaV r i) (seq 0 (List.length P))) 0)) by now rewrite map_length, seq_length.
    rewrite (map_nth (fun i => map (alphaV r i) (seq 0 (List.length P)))), seq_nth by assumption. reflexivity. }
  rewrite Row in Fr. clear - Fr S0. revert vs' Fr. generalize 0 at 1. induction (List.length P) as [|n IH]; intros k vs Fr; cbn [seq map] in Fr; inversion Fr as [|c v cs vs' Hc Fr' Ec Ev]; subst; [reflexivity|].
  cbn [repeat]. f_equal; [|now apply (IH (S k))]. unfold shown_as in Hc. cbn in Hc. destruct Hc as ((z & ->) & A). specialize (S0 i k).
  replace (powerRZ 10 (- Z.of_nat 8)) with (/ 100000000)%R in A |- * by (simpl; f_equal; lra). replace (10 ^ 9)%R with 1000000000%R in S0 by lra.
  assert (Z0 : (Rabs (IZR z) < 1)%R).
  { pose proof (Rabs_triang (IZR z * / 100000000 - alphaV r i k) (alphaV r i k)) as Tr. replace (IZR z * / 100000000 - alphaV r i k + alphaV r i k)%R with (IZR z * / 100000000)%R in Tr by ring.
    rewrite Rabs_mult, (Rabs_pos_eq (/ 100000000)) in Tr by (left; apply Rinv_0_lt_compat; lra).
    lra. }
  rewrite <- abs_IZR in Z0. apply lt_IZR in Z0. replace z with 0%Z by lia. lra.
Qed.

(** * Harmonic files *)
Definition ha_session (listing base : string) (s : settings) (job : string) (x : input) (T : list R) (r : ha_results) : session :=
  {| source := ha_result_file s job x T r; listing := listing; outbase := base; axes := Some ("T", "V") |}.
Lemma ha_unique s job x T r : unique (ha_result_file s job x T r).
Proof.
  assert (D : nodup string_dec ("V" :: "T" :: "U0" :: "Uzp" :: ha_names) = "V" :: "T" :: "U0" :: "Uzp" :: ha_names) by (vm_compute; reflexivity).
  unfold unique. change (map fst (named (ha_result_file s job x T r))) with ("V" :: "T" :: "U0" :: "Uzp" :: ha_names). rewrite <- D. apply NoDup_nodup.
Qed.
(** Every property with one row per temperature is exported with 12 digits, under
    its own title and unit. *)
Theorem C90_ha_export listing base s job x T r name f file :
  ha_property r name = Some f -> 1 <= nvol x -> Forall no_newline [eunit s; vunit s; tunit s] ->
  exists text, export_data (ha_session listing base s job x T r) name file = ([Writes file text; Shows "Results exported correctly!"], Returned) /\
    table_says text T ("T (" +++ tunit s +++ ")") (ha_volumes x) ("Volume (" +++ vunit s +++ ")") (table_rows (List.length T) (nvol x) f) (ha_description name)
      (if mem name ["S"; "Cv"] then "m" +++ eunit s else eunit s) (rounded_sig 12).
Proof.
  intros E NV U. assert (UN : forall w, In w [eunit s; vunit s; tunit s] -> no_newline w) by now apply Forall_forall.
  set (d := with_attributes (ha_description name) (ha_unit s name) (array_of (List.length T) (nvol x) f)).
  assert (I : In (name, d) (named (ha_result_file s job x T r)) /\ In name ha_names).
  { unfold ha_property in E. cbn [find] in E. subst d. cbn [ha_result_file named].
    repeat match type of E with context [String.eqb name ?k] => destruct (String.eqb_spec name k) as [->|]; [injection E as <-; split; [simpl; tauto|simpl; tauto]|] end. discriminate E. }
  destruct I as (D & H). pose proof (find_in _ _ _ (ha_unique s job x T r) D) as E1.
  assert (Uh : (if mem name ["S"; "Cv"] then "m" +++ eunit s else eunit s) = ha_unit s name /\ no_newline (ha_unit s name) /\ no_newline (ha_description name) /\ style_of (ha_description name) = Etype).
  { repeat (destruct H as [<-|H]; [split; [reflexivity|split; [|split; reflexivity]]; first [apply UN; simpl; tauto|apply no_newline_app; [reflexivity|apply UN; simpl; tauto]]|]). destruct H. }
  destruct Uh as (-> & N1 & N2 & Y).
  assert (LV : List.length (ha_volumes x) = nvol x) by (unfold ha_volumes; now rewrite map_length, seq_length).
  destruct (table_rows_shape (List.length T) (nvol x) f) as (L & Fm).
  pose proof (table_ok T (tunit s) (ha_volumes x) "Unit cell volume" (vunit s) (table_rows (List.length T) (nvol x) f) (ha_description name) (ha_unit s name)
    ltac:(intros X; rewrite X in LV; simpl in LV; lia) L ltac:(now rewrite LV) ltac:(apply UN; simpl; tauto) ltac:(apply UN; simpl; tauto) eq_refl N2 N1 (or_introl eq_refl)) as (A & B).
  exists (fst (table_text T "Temperature" (tunit s) (ha_volumes x) "Unit cell volume" (vunit s) (Mat (table_rows (List.length T) (nvol x) f)) (ha_description name) (ha_unit s name))).
  split; [|rewrite Y in B; exact B].
  unfold export_data. cbn [axes ha_session source]. change (axis_of (ha_result_file s job x T r) "T") with (@inl (list R * string * string) string (T, "Temperature", tunit s)).
  change (axis_of (ha_result_file s job x T r) "V") with (@inl (list R * string * string) string (ha_volumes x, "Unit cell volume", vunit s)).
  rewrite E1. destruct (C90_attribute _ name (ha_unique s job x T r)) as (X & _).
  assert (ND : NoDup (map fst (attributes d))) by (cbn; repeat constructor; simpl; intuition discriminate).
  rewrite (X d "desc" (ha_description name) D ND ltac:(simpl; tauto)), (X d "unit" (ha_unit s name) D ND ltac:(simpl; tauto)).
  cbn [content d with_attributes]. rewrite array_rows. fold (table_rows (List.length T) (nvol x) f). destruct (table_text _ _ _ _ _ _ _ _ _) as [t o]. cbn [snd fst] in *. now rewrite A.
Qed.
(** The zero-point energies of several temperatures have one row only: a cut off
    file is left behind and the session ends in an IndexError. *)
Theorem C90_ha_zero_point_refuted listing base s job x T r file : 1 <= nvol x -> 2 <= List.length T ->
  exists text, export_data (ha_session listing base s job x T r) "Uzp" file = ([Writes file text], Stopped "IndexError").
Proof.
  intros NV NT. unfold export_data. cbn [axes ha_session source].
  change (axis_of (ha_result_file s job x T r) "T") with (@inl (list R * string * string) string (T, "Temperature", tunit s)).
  change (axis_of (ha_result_file s job x T r) "V") with (@inl (list R * string * string) string (ha_volumes x, "Unit cell volume", vunit s)).
  assert (D : In ("Uzp", with_attributes "Zero-point energy" (eunit s) (array_of 1 (nvol x) (fun _ => ha_Uzp r))) (named (ha_result_file s job x T r))) by (cbn [ha_result_file named]; simpl; tauto).
  rewrite (find_in _ _ _ (ha_unique s job x T r) D). destruct (C90_attribute _ "Uzp" (ha_unique s job x T r)) as (X & _).
  match type of D with In (_, ?dd) _ => assert (ND : NoDup (map fst (attributes dd))) by (cbn; repeat constructor; simpl; intuition discriminate);
    rewrite (X dd "desc" _ D ND ltac:(left; reflexivity)), (X dd "unit" _ D ND ltac:(right; left; reflexivity)) end.
  cbn [content with_attributes]. rewrite array_rows.
  assert (LV : List.length (ha_volumes x) = nvol x) by (unfold ha_volumes; now rewrite map_length, seq_length).
  pose proof (C63_short_fails kind_of false T "Temperature" (tunit s) (ha_volumes x) "Unit cell volume" (vunit s) (map (fun i => map ((fun _ => ha_Uzp r) i) (seq 0 (nvol x))) (seq 0 1)) "Zero-point energy" (eunit s) _ _ _
    eq_refl eq_refl eq_refl ltac:(intros Y; rewrite Y in LV; simpl in LV; lia) ltac:(cbn [List.length seq map]; lia) ltac:(rewrite LV; constructor; [now rewrite map_length, seq_length|constructor])) as A.
  unfold table_text. destruct (write _ _ _ _ _ _ _ _ _ _ _) as [txt o]. cbn [snd] in A. subst o. eexists. reflexivity.
Qed.

(** * Cases *)
Definition a_file : result_file := qha_result_file a_settings "test" [100; 200]%R [0; 1]%R a_results.
Example C90_data_case : get_data a_file "T" = Whole (Vec [100; 200]%R) /\ has_data a_file "x" = Text "Dataset 'x' not found" /\
  get_data_row "ValueError" a_file "KT" (-1) = Line [KT a_results 1 0; KT a_results 1 1] /\
  get_data_column "IndexError" a_file "KT" 2 = Exception "IndexError" /\ get_attribute a_file "KT" "unit" = Text "GPa" /\
  get_attribute a_file "KT" "colour" = Exception "KeyError".
Proof.
  repeat split.
Qed.
Example C90_listing_case : exists text, read a_file = inl text /\ In "             KT: Isothermal bulk modulus (GPa)" (lines text) /\ In "Job: Unknown" (lines text) /\
  nth 22 (lines text) "" = "              F: Helmholtz free energy (Ha)" /\ nth 19 (lines text) "" = "             Cp: Isobaric heat capacity (Ha)".
Proof. eexists. split; [reflexivity|]. vm_compute. intuition. Qed.
Example C90_dialogue_case : let out := run (qha_session "..." "run" a_settings "test" [100; 200]%R [0; 1]%R a_results) ["Help"; "KT"; ""; "maybe"; "Y"; "alphaV"; "my.dat"; ""] in
  snd out = Returned /\ map fst (saved (fst out)) = ["run_KT.dat"; "my.dat"].
Proof.
  cbv zeta.
  destruct (C90_dialogue "..." "run" a_settings "test" [100; 200]%R [0; 1]%R a_results ["Help"; "KT"; ""; "maybe"; "Y"; "alphaV"; "my.dat"; ""] [("KT", ""); ("alphaV", "my.dat")]) as (A & B).
  - discriminate.
  - discriminate.
  - repeat constructor.
  - apply Helps; [reflexivity|]. apply (More _ "KT" "" ["maybe"] "Y"); [simpl; tauto|repeat constructor; discriminate|reflexivity|].
    apply (Last _ "alphaV" "my.dat" [] ""); [simpl; tauto|constructor|now left].
  - split; [exact A|].
    change ["run_KT.dat"; "my.dat"] with (map (fun vf => destination "run" (fst vf) (snd vf)) [("KT", ""); ("alphaV", "my.dat")]).
    clear A. induction B as [|vf nt l l' (E & _) _ IH]; [reflexivity|]. cbn [map]. now rewrite E, IH.
Qed.
Example C90_ha_case : exists listing, read_input None "calcite_HA.hdf5" (ha_result_file a_settings "calcite" a_input [100; 200]%R a_ha) =
  Ready {| source := ha_result_file a_settings "calcite" a_input [100; 200]%R a_ha; listing := listing; outbase := "calcite_HA"; axes := Some ("T", "V") |}.
Proof. apply (C90_ha_recognised None "calcite_HA.hdf5"); try reflexivity; simpl; tauto. Qed.
Example C90_other_case : exists session, read_input None "b.hdf5" {| about := Some ("" +++ String newline "This file was created with Quantas."); named := [("stiffness", {| content := Mat [[1]]%R; attributes := [("unit", "GPa")] |})] |} = Ready session /\
  run session ["stiffness"; ""] = (menu ++ [Asks "Select output file for the selected data: (b_stiffness.dat)"], Stopped "AttributeError").
Proof. eexists. split; reflexivity. Qed.
Example C90_expansion_case : exists r, alphaV r 0 0 <> 0%R /\ exists text,
  export_data (qha_session "" "run" a_settings "" [300]%R [0]%R r) "alphaV" "x" = ([Writes "x" text; Shows "Results exported correctly!"], Returned) /\
  exists t, numbers (nth 9 (lines text) "") = Some [t; 0%R].
Proof.
  exists {| Uzp := Uzp a_results; Uth := Uth a_results; Utot := Utot a_results; Ent := Ent a_results; F := F a_results; Fvib := Fvib a_results; Cv := Cv a_results; VT := VT a_results;
    KT := KT a_results; Kp := Kp a_results; H := H a_results; G := G a_results; alphaV := fun _ _ => (4 / 1000000000)%R; CpCv := CpCv a_results; Cp := Cp a_results; KS := KS a_results; gruneisen := gruneisen a_results |}.
  split; [cbn [alphaV]; apply Rgt_not_eq; lra|].
  destruct (C90_expansion_refuted "" "run" a_settings "" [300]%R [0]%R
    {| Uzp := Uzp a_results; Uth := Uth a_results; Utot := Utot a_results; Ent := Ent a_results; F := F a_results; Fvib := Fvib a_results; Cv := Cv a_results; VT := VT a_results;
    KT := KT a_results; Kp := Kp a_results; H := H a_results; G := G a_results; alphaV := fun _ _ => (4 / 1000000000)%R; CpCv := CpCv a_results; Cp := Cp a_results; KS := KS a_results; gruneisen := gruneisen a_results |} "x") as (text & E & B).
  - discriminate.
  - discriminate.
  - repeat constructor.
  - intros i j. cbn [alphaV]. rewrite Rabs_pos_eq by lra. replace (10 ^ 9)%R with 1000000000%R by lra. lra.
  - exists text. split; [exact E|]. exact (B 0 ltac:(cbn; lia)).
Qed.
Example C90_ha_export_case : exists text, export_data (ha_session "" "c" a_settings "calcite" a_input [100; 200]%R a_ha) "S" "s.dat" = ([Writes "s.dat" text; Shows "Results exported correctly!"], Returned) /\
  nth 3 (lines text) "" = "Data in mHa units".
Proof.
  destruct (C90_ha_export "" "c" a_settings "calcite" a_input [100; 200]%R a_ha "S" _ "s.dat" eq_refl) as (text & E & top & head & ys & bar & body & B & _); [cbn [nvol a_input]; lia|repeat constructor|].
  exists text. split; [exact E|]. now rewrite B.
Qed.

Print Assumptions C90_qha_recognised.
Print Assumptions C90_ha_recognised.
Print Assumptions C90_ha_recognised_refuted.
Print Assumptions C90_other_refuted.
Print Assumptions C90_job_refuted.
Print Assumptions C90_dialogue.
Print Assumptions C90_any_dialogue.
Print Assumptions C90_unknown_refuted.
Print Assumptions C90_expansion_refuted.
Print Assumptions C90_ha_export.
Print Assumptions C90_ha_zero_point_refuted.
