(** Lemmas about HaInpgenModel: the lines agree with QhaWriterModel when all
    numbers are numbers; how files are read; what a run leaves behind. *)
From Coq Require Import Reals String Ascii List Bool Arith ZArith NArith Lia Lra.
From Flocq Require Import Core.
From Verif Require Import Py DecimalModel FormatModel SoecInterfaceModel CliModel HaInpgenModel.
From Verif Require QhaReaderModel QhaWriterModel CrystalModel PhonopyModel UnitsModel.
Import ListNotations.
Open Scope string_scope.
Open Scope list_scope.
Open Scope nat_scope.

(** ** The same numbers as reals *)
Definition dim_rows (d : QhaWriterModel.three_reals * QhaWriterModel.three_reals * QhaWriterModel.three_reals) : list (list fl) :=
  let '(a, b, c) := d in [triple a; triple b; triple c].
Record same_numbers (d : phonon_set) (o : QhaWriterModel.output) : Prop := {
  same_atoms : atoms d = QhaWriterModel.natom o;
  same_expansion : forall i j, i < 3 -> j < 3 -> expansion d i j = nth j (nth i (dim_rows (QhaWriterModel.dim o)) []) NaN;
  same_qnumber : qnumber d = QhaWriterModel.qpoints o;
  same_coords : coords d = map triple (QhaWriterModel.qcoords o);
  same_mesh : mesh d = triple (QhaWriterModel.shrinkf o);
  same_weights : qweights d = map Num (QhaWriterModel.weights o);
  same_modes : modes d = QhaWriterModel.nphonon o;
  same_volume : cell_volume d = Num (QhaWriterModel.volume o);
  same_energy : cell_energy d = Num (QhaWriterModel.energy o);
  same_bands : bands d = map (map Num) (QhaWriterModel.phonons o) }.

Lemma listed_fields sep (f : R -> string) l : listed sep (map f l) = QhaWriterModel.fields sep f l.
Proof.
  induction l as [|x l IH]; [reflexivity|]. destruct l as [|y l]; [reflexivity|].
  change (f x +++ sep +++ listed sep (map f (y :: l)) = f x +++ sep +++ QhaWriterModel.fields sep f (y :: l)). now rewrite IH.
Qed.
Lemma each_map {A B C} (f : B -> QhaReaderModel.outcome C) (g : A -> B) l : QhaWriterModel.each f (map g l) = QhaWriterModel.each (fun x => f (g x)) l.
Proof. induction l as [|x l IH]; [reflexivity|]. cbn [map QhaWriterModel.each]. now rewrite IH. Qed.
Lemma each_ext {A B} (f g : A -> QhaReaderModel.outcome B) l : (forall x, In x l -> f x = g x) -> QhaWriterModel.each f l = QhaWriterModel.each g l.
Proof.
  induction l as [|x l IH]; intros H; [reflexivity|]. cbn [QhaWriterModel.each]. rewrite H by now left.
  rewrite IH; [reflexivity|]. intros y I0. apply H. now right.
Qed.
Lemma key_map {A B} (g : A -> B) l i : QhaWriterModel.key (map g l) i = QhaReaderModel.bind (QhaWriterModel.key l i) (fun x => QhaReaderModel.Ok (g x)).
Proof. unfold QhaWriterModel.key. rewrite nth_error_map. now destruct (nth_error l i). Qed.
Lemma item_map {A B} (g : A -> B) l i : QhaWriterModel.item (map g l) i = QhaReaderModel.bind (QhaWriterModel.item l i) (fun x => QhaReaderModel.Ok (g x)).
Proof. unfold QhaWriterModel.item. rewrite nth_error_map. now destruct (nth_error l i). Qed.

Lemma heading_agrees job d o : same_numbers d o ->
  heading job (atoms d) (expansion d) (qnumber d) = QhaReaderModel.Ok (QhaWriterModel.header job o).
Proof.
  intros S0. unfold heading, QhaWriterModel.header. pose proof (same_expansion _ _ S0) as X.
  destruct (QhaWriterModel.dim o) as ((((a1, a2), a3), ((b1, b2), b3)), ((c1, c2), c3)). cbn [QhaWriterModel.each].
  unfold expansion_line. rewrite !X by lia. cbn [dim_rows triple nth whole QhaReaderModel.bind app].
  rewrite (same_atoms _ _ S0), (same_qnumber _ _ S0). reflexivity.
Qed.
Lemma band_agrees all os i j : List.Forall2 same_numbers all os ->
  QhaWriterModel.each (fun d => QhaReaderModel.bind (QhaWriterModel.key (bands d) i) (fun b => QhaWriterModel.item b j)) all =
  QhaReaderModel.bind (QhaWriterModel.each (fun d => QhaReaderModel.bind (QhaWriterModel.key (QhaWriterModel.phonons d) i) (fun b => QhaWriterModel.item b j)) os)
    (fun l => QhaReaderModel.Ok (map Num l)).
Proof.
  induction 1 as [|d o all os S0 _ IH]; [reflexivity|]. cbn [QhaWriterModel.each]. rewrite IH, (same_bands _ _ S0), key_map.
  destruct (QhaWriterModel.key (QhaWriterModel.phonons o) i) as [b|e]; [|reflexivity]. cbn [QhaReaderModel.bind]. rewrite item_map.
  destruct (QhaWriterModel.item b j); [|reflexivity]. cbn [QhaReaderModel.bind].
  destruct (QhaWriterModel.each _ os); reflexivity.
Qed.
Lemma mode_agrees all os i j : List.Forall2 same_numbers all os -> mode_of all i j = QhaWriterModel.mode_lines os i j.
Proof.
  intros S0. unfold mode_of, QhaWriterModel.mode_lines. rewrite (band_agrees _ _ _ _ S0). destruct (QhaWriterModel.each _ os) as [l|]; [|reflexivity].
  cbn [QhaReaderModel.bind]. unfold mode_text, QhaWriterModel.frequency_line. rewrite map_map. cbn [text_f]. now rewrite listed_fields.
Qed.
Lemma q_agrees all os d o i : List.Forall2 same_numbers all os -> same_numbers d o -> q_of all d i = QhaWriterModel.q_lines os o i.
Proof.
  intros F S0. unfold q_of, q_block, QhaWriterModel.q_lines. rewrite (same_coords _ _ S0), key_map.
  destruct (QhaWriterModel.key (QhaWriterModel.qcoords o) i) as [q|]; [|reflexivity]. cbn [QhaReaderModel.bind]. rewrite (same_mesh _ _ S0).
  destruct q as ((a, b), c). destruct (QhaWriterModel.shrinkf o) as ((x, y), z) eqn:Es. cbn [triple q_line QhaReaderModel.bind CrystalModel.fdiv fop text_f].
  rewrite (same_weights _ _ S0), key_map. destruct (QhaWriterModel.key (QhaWriterModel.weights o) i) as [w|]; [|reflexivity].
  cbn [QhaReaderModel.bind whole]. rewrite (same_modes _ _ S0), (each_ext (mode_of all i) (QhaWriterModel.mode_lines os i)) by (intros; now apply mode_agrees).
  reflexivity.
Qed.
Lemma py_item_agrees {A B} (P : A -> B -> Prop) l m i : List.Forall2 P l m ->
  (exists x y, QhaWriterModel.py_item l i = QhaReaderModel.Ok x /\ QhaWriterModel.py_item m i = QhaReaderModel.Ok y /\ P x y) \/
  (QhaWriterModel.py_item l i = QhaReaderModel.Raises "IndexError" /\ QhaWriterModel.py_item m i = QhaReaderModel.Raises "IndexError").
Proof.
  intros F. assert (L : List.length l = List.length m) by (induction F; cbn [List.length]; congruence).
  assert (N : forall k, (exists x y, QhaWriterModel.item l k = QhaReaderModel.Ok x /\ QhaWriterModel.item m k = QhaReaderModel.Ok y /\ P x y) \/
    (QhaWriterModel.item l k = QhaReaderModel.Raises "IndexError" /\ QhaWriterModel.item m k = QhaReaderModel.Raises "IndexError")).
  { clear L. induction F as [|x y l m Pxy _ IH]; intros [|k]; [right; split; reflexivity|right; split; reflexivity|left; now exists x, y|]. apply (IH k). }
  unfold QhaWriterModel.py_item. rewrite L. destruct (i <? 0)%Z; [destruct (_ <? 0)%Z; [right; split; reflexivity|]|]; apply N.
Qed.
Lemma many_agrees all os job ref : List.Forall2 same_numbers all os -> many_lines all job ref = QhaWriterModel.multiple_lines os job ref.
Proof.
  intros F. unfold many_lines, QhaWriterModel.multiple_lines.
  destruct (py_item_agrees same_numbers all os ref F) as [(d & o & -> & -> & S0)|(-> & ->)]; [|reflexivity]. cbn [QhaReaderModel.bind].
  rewrite (heading_agrees job d o S0). cbn [QhaReaderModel.bind]. rewrite (same_qnumber _ _ S0).
  rewrite (each_ext (q_of all d) (QhaWriterModel.q_lines os o)) by (intros; now apply q_agrees).
  destruct (QhaWriterModel.each (QhaWriterModel.q_lines os o) _); [|reflexivity]. cbn [QhaReaderModel.bind]. unfold QhaWriterModel.volume_line, QhaWriterModel.energy_line.
  rewrite <- !listed_fields, !map_map.
  assert (V : map (fun d => text_f 16 8 (cell_volume d)) all = map (fun o => fmt_f 16 8 (QhaWriterModel.volume o)) os).
  { clear - F. induction F as [|x y l m S1 _ IH]; [reflexivity|]. cbn [map]. rewrite IH, (same_volume _ _ S1). reflexivity. }
  assert (E : map (fun d => text_E 20 12 (cell_energy d)) all = map (fun o => fmt_E 20 12 (QhaWriterModel.energy o)) os).
  { clear - F. induction F as [|x y l m S1 _ IH]; [reflexivity|]. cbn [map]. rewrite IH, (same_energy _ _ S1). reflexivity. }
  now rewrite V, E.
Qed.

(** ** Running *)
Section Running.
Variable t : texts.
Variable is_text : string -> bool.
Variable yaml_load : string -> QhaReaderModel.parsed.
Variable xml_load : string -> PhonopyModel.xml.
Variable K : UnitsModel.constants.
Notation reads := (read_files is_text yaml_load xml_load K).
Notation command := (ha_inpgen t is_text yaml_load xml_load K).
Notation reading := (reading_of is_text yaml_load xml_load K).

Definition showing (w : world) (l : list (kind * string)) : world := {| fs := fs w; screen := screen w ++ l |}.
Lemma showing_app w l m : showing (showing w l) m = showing w (l ++ m).
Proof. unfold showing. cbn [fs screen]. now rewrite app_assoc. Qed.
Lemma showing_nil w : showing w [] = w.
Proof. unfold showing. rewrite app_nil_r. now destruct w. Qed.
(** What one file which could be read says *)
Definition read_lines (f : string) (reference : bool) : list (kind * string) :=
  [(Plain, "  - " +++ f +++ " ..."); (Plain, if reference then " Done! (Reference)" else " Done!")].
Fixpoint done_lines (files : list string) (c : nat) (ref : Z) : list (kind * string) :=
  match files with [] => [] | f :: r => read_lines f (Z.of_nat c =? ref)%Z ++ done_lines r (S c) ref end.
Definition readable (k : interface) (g : string -> node) (f : string) (d : phonon_set) : Prop :=
  exists content, g f = File content /\ reading k g f content = Got d.

Lemma reads_all k files : forall ds c ref l w, List.Forall2 (readable k (fs w)) files ds ->
  forall rest, reads k (files ++ rest) c ref (Several l) w = reads k rest (c + List.length files) ref (Several (l ++ ds)) (showing w (done_lines files c ref)).
Proof.
  induction files as [|f files IH]; intros ds c ref l w F rest; inversion F as [|? d ? ds' (content & Ef & Rf) F']; subst.
  - cbn [app List.length done_lines]. now rewrite Nat.add_0_r, app_nil_r, showing_nil.
  - cbn [app read_files]. rewrite Ef. unfold and_then at 1, lift, show. rewrite Rf. unfold and_then, lift, show. cbn [add].
    match goal with |- reads k _ _ _ _ ?v = _ => replace v with (showing w (read_lines f (Z.of_nat c =? ref)%Z)) by (unfold showing, read_lines; cbn [fs screen]; now rewrite <- app_assoc) end.
    rewrite (IH ds' (S c) ref (l ++ [d]) (showing w (read_lines f (Z.of_nat c =? ref)%Z)) F' rest). cbn [List.length done_lines]. rewrite showing_app, <- app_assoc. cbn [app].
    replace (S c + List.length files) with (c + S (List.length files)) by lia. reflexivity.
Qed.
(** Reading changes nothing but the screen. *)
Lemma reads_frame k files : forall c ref x w r v, reads k files c ref x w = Some (r, v) -> exists l, v = showing w l.
Proof.
  induction files as [|f files IH]; intros c ref x w r v E.
  - injection E as _ <-. exists []. symmetry. apply showing_nil.
  - cbn [read_files] in E. destruct (fs w f) as [|content|] eqn:Ef.
    + injection E as _ <-. exists []. symmetry. apply showing_nil.
    + unfold and_then at 1, lift, show in E. destruct (reading k (fs w) f content) as [|e|e|d|q].
      * discriminate.
      * injection E as _ <-. eexists. reflexivity.
      * injection E as _ <-. eexists. reflexivity.
      * apply IH in E. destruct E as (l & ->). eexists. unfold showing. cbn [fs screen]. rewrite <- !app_assoc. reflexivity.
      * apply IH in E. destruct E as (l & ->). eexists. unfold showing. cbn [fs screen]. rewrite <- !app_assoc. reflexivity.
    + unfold and_then, lift, show, raise in E. injection E as _ <-. eexists. reflexivity.
Qed.
Lemma read_frame k f content il ref w r v : read is_text yaml_load xml_load K k f content il ref w = Some (r, v) -> exists l, v = showing w l.
Proof.
  unfold read. destruct il; [destruct (is_qha k); [|destruct (is_text content)]|]; intros E; try (eapply reads_frame; eassumption);
  injection E as _ <-; exists []; symmetry; apply showing_nil.
Qed.
Lemma complain_runs msg w : complain t msg w = (Ok tt, showing w [(Error, error_banner t); (Error, msg)]).
Proof. unfold complain, echo_error, log, show, bind, ret, showing. cbn [fs screen]. now rewrite <- app_assoc. Qed.
Lemma farewell_runs w : farewell t w = (Ok tt, showing w [(Highlight, bib_header t); (Highlight, own_citation t); (Highlight, bib_footer t); (Highlight, finish t)]).
Proof. unfold farewell, echo_highlight, log, show, bind, ret, showing. cbn [fs screen negb]. now rewrite <- !app_assoc. Qed.
Definition preparing (out : string) : kind * string := (Plain, "Preparing the input file for Quantas: '" +++ out +++ "'").
(** What the last part of the command leaves: nothing, or the complete file *)
Definition made (k : interface) (x : collection) (ref : Z) (job : string) : QhaReaderModel.outcome (list string) :=
  match x with Single c => one_lines c job | Several l => many_lines l job ref end.
Definition farewells : list (kind * string) := [(Highlight, bib_header t); (Highlight, own_citation t); (Highlight, bib_footer t); (Highlight, finish t)].
Lemma writes out make answer w :
  (exists e, (write_lines out make answer ;; farewell t) w = (Raises e, showing w [(Question, question)]) /\
     (answer = Raises e \/ exists job, answer = Ok job /\ (make job = QhaReaderModel.Raises e \/ e = "IsADirectoryError" /\ fs w out = Dir))) \/
  (exists job ls, answer = Ok job /\ make job = QhaReaderModel.Ok ls /\ fs w out <> Dir /\
     (write_lines out make answer ;; farewell t) w =
     (Ok tt, {| fs := update (fs w) out (File (join_lines ls)); screen := screen w ++ (Question, question) :: farewells |})).
Proof.
  assert (Q : (write_lines out make answer ;; farewell t) w =
    match answer with
    | Raises e => (Raises e, showing w [(Question, question)])
    | Ok job => match make job with
                | QhaReaderModel.Raises e => (Raises e, showing w [(Question, question)])
                | QhaReaderModel.Ok ls => match fs w out with
                    | Dir => (Raises "IsADirectoryError", showing w [(Question, question)])
                    | _ => farewell t {| fs := update (fs w) out (File (join_lines ls)); screen := screen w ++ [(Question, question)] |} end end end).
  { unfold write_lines, bind, show, raise, write. destruct answer as [job|e]; [|reflexivity]. destruct (make job) as [ls|e]; [|reflexivity].
    cbn [fs screen]. destruct (fs w out); reflexivity. }
  rewrite Q. destruct answer as [job|e]; [|left; exists e; split; [reflexivity|now left]].
  destruct (make job) as [ls|e] eqn:Em; [|left; exists e; split; [reflexivity|right; exists job; split; [reflexivity|now left]]].
  destruct (fs w out) as [|old|] eqn:Eo.
  1, 2: right; exists job, ls; split; [reflexivity|]; split; [exact Em|]; split; [congruence|];
        rewrite farewell_runs; unfold showing; cbn [fs screen]; rewrite <- app_assoc; reflexivity.
  left. exists "IsADirectoryError". split; [reflexivity|]. right. exists job. split; [reflexivity|]. right. now split.
Qed.
Lemma generates k out ref answer x w : is_qha k = (match x with Single _ => true | Several _ => false end) ->
  (match x with Single _ => True | Several l => (ref <= Z.of_nat (List.length l))%Z end) ->
  (exists e, generate t k out ref answer x w = (Raises e, showing w [preparing out; (Question, question)]) /\
     (answer = Raises e \/ exists job, answer = Ok job /\ (made k x ref job = QhaReaderModel.Raises e \/ e = "IsADirectoryError" /\ fs w out = Dir))) \/
  (exists job ls, answer = Ok job /\ made k x ref job = QhaReaderModel.Ok ls /\ fs w out <> Dir /\
     generate t k out ref answer x w =
     (Ok tt, {| fs := update (fs w) out (File (join_lines ls)); screen := screen w ++ preparing out :: (Question, question) :: farewells |})).
Proof.
  intros Q L.
  assert (X : forall make, made k x ref = make ->
    (exists e, (write_lines out make answer ;; farewell t) (showing w [preparing out]) = (Raises e, showing w [preparing out; (Question, question)]) /\
     (answer = Raises e \/ exists job, answer = Ok job /\ (make job = QhaReaderModel.Raises e \/ e = "IsADirectoryError" /\ fs w out = Dir))) \/
    (exists job ls, answer = Ok job /\ make job = QhaReaderModel.Ok ls /\ fs w out <> Dir /\
     (write_lines out make answer ;; farewell t) (showing w [preparing out]) =
     (Ok tt, {| fs := update (fs w) out (File (join_lines ls)); screen := screen w ++ preparing out :: (Question, question) :: farewells |}))).
  { intros make _. destruct (writes out make answer (showing w [preparing out])) as [(e & E & C)|(job & ls & A & B & C & E)].
    - left. exists e. rewrite E, showing_app. split; [reflexivity|exact C].
    - right. exists job, ls. rewrite E. unfold showing. cbn [fs screen]. rewrite <- app_assoc. now repeat split. }
  assert (G : generate t k out ref answer x w = (write_lines out (made k x ref) answer ;; farewell t) (showing w [preparing out])).
  { destruct x as [l|c]; unfold generate; rewrite ?Q; [|reflexivity]. destruct (Z.ltb_spec (Z.of_nat (List.length l)) ref); [lia|]. reflexivity. }
  rewrite G. exact (X _ eq_refl).
Qed.
(** The whole command, from what was read *)
Definition opening : kind * string := (Highlight, title t).
Lemma runs k f o il ref answer w content : fs w f = File content ->
  command k f o il ref answer w =
  match read is_text yaml_load xml_load K k f content il ref (showing w [opening]) with
  | None => None
  | Some (Raises e, v) =>
      if String.eqb e "KeyError" then Some (complain t ("File '" +++ f +++ "' does not appear as a valid input file") v)
      else if String.eqb e "UnicodeDecodeError" then Some (complain t ("File '" +++ f +++ "' is in binary format") v)
      else Some (Raises e, v)
  | Some (Ok (inr error), v) => Some (complain t error v)
  | Some (Ok (inl x), v) => Some (generate t k (output_path o) ref answer x v)
  end.
Proof. intros F. unfold ha_inpgen. rewrite F. reflexivity. Qed.
End Running.
