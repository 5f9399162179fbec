(** C100: quantas inpgen ha, from the outputs on disk to the input file, and on
    to quantas ha. *)
From Coq Require Import Reals String Ascii List Bool Arith ZArith NArith Lia Lra.
From Flocq Require Import Core.
From Verif Require Import Py DecimalModel FormatModel SoecInterfaceModel CliModel HaInpgenModel HaInpgenProofs.
From Verif Require QhaReaderModel QhaWriterModel QhaWriterProofs QhaWriterProps QhaReaderProps CrystalModel CrystalProps CrystalCellProps CrystalOutputSpec CrystalOutputProofs
  PhonopyModel UnitsModel UnitsSpec YamlSpec FormatProofs HaCommandModel HaCommandProps H5Model.
Import ListNotations.
Open Scope string_scope.
Open Scope list_scope.
Open Scope nat_scope.

(** ** What one CRYSTAL output prints *)
Record printed := {
  p_atoms : nat; p_points : nat; p_expansion : CrystalCellProps.rmat; p_mesh : nat -> R; p_coords : nat -> nat -> R; p_weight : nat -> R;
  p_volume : R; p_energy : R; p_frequency : nat -> nat -> R }.
(** Frequencies at the zone centre; or at the points of a mesh, from a supercell
    whose volume and energy are shared among its unit cells. *)
Inductive prints (lines : list string) : printed -> Prop :=
| prints_gamma n A x F : CrystalOutputSpec.gamma_output lines n A x F ->
    prints lines {| p_atoms := n; p_points := 1; p_expansion := CrystalCellProps.id3; p_mesh := (fun _ => 1%R); p_coords := (fun _ _ => 0%R); p_weight := (fun _ => 1%R);
                    p_volume := CrystalCellProps.rdet A; p_energy := x; p_frequency := (fun _ => F) |}
| prints_dispersion n nq A E x q w m F : CrystalOutputSpec.dispersion_output lines n nq A E x q w m F ->
    prints lines {| p_atoms := n; p_points := nq; p_expansion := E; p_mesh := m; p_coords := q; p_weight := w;
                    p_volume := (CrystalCellProps.rdet A / CrystalCellProps.rdet E)%R; p_energy := (x / CrystalCellProps.rdet E)%R; p_frequency := F |}.
Definition three (f : nat -> R) : QhaWriterModel.three_reals := (f 0, f 1, f 2).
Definition rows (E : CrystalCellProps.rmat) : QhaWriterModel.three_reals * QhaWriterModel.three_reals * QhaWriterModel.three_reals := (three (E 0), three (E 1), three (E 2)).
(** The same as the record of the writer *)
Definition record (p : printed) : QhaWriterModel.output :=
  {| QhaWriterModel.natom := Z.of_nat (p_atoms p); QhaWriterModel.dim := rows (p_expansion p); QhaWriterModel.qpoints := p_points p;
     QhaWriterModel.qcoords := map (fun i => three (p_coords p i)) (seq 0 (p_points p)); QhaWriterModel.shrinkf := three (p_mesh p);
     QhaWriterModel.weights := map (p_weight p) (seq 0 (p_points p)); QhaWriterModel.nphonon := p_atoms p * 3;
     QhaWriterModel.volume := p_volume p; QhaWriterModel.energy := p_energy p;
     QhaWriterModel.phonons := CrystalOutputProofs.bands_of (p_points p) (p_atoms p) (p_frequency p) |}.
Lemma seq_nth_in {A} (f : nat -> A) n i d : i < n -> nth i (map f (seq 0 n)) d = f i.
Proof. intros H. rewrite (nth_indep _ d (f 0)) by now rewrite map_length, seq_length. rewrite map_nth, seq_nth by exact H. reflexivity. Qed.
Lemma record_frequency p i j : i < p_points p -> j < p_atoms p * 3 -> QhaWriterProps.frequency (record p) i j = p_frequency p i j.
Proof.
  intros Hi Hj. unfold QhaWriterProps.frequency. cbn [record QhaWriterModel.phonons]. unfold CrystalOutputProofs.bands_of.
  rewrite (seq_nth_in (fun k => map (p_frequency p k) (seq 0 (p_atoms p * 3)))) by exact Hi. now apply seq_nth_in.
Qed.
Lemma record_covers p nq nm : nq <= p_points p -> nm <= p_atoms p * 3 -> QhaWriterProps.covers nq nm (record p).
Proof.
  intros Q M i Hi. exists (map (p_frequency p i) (seq 0 (p_atoms p * 3))). split; [|now rewrite map_length, seq_length].
  cbn [record QhaWriterModel.phonons]. unfold CrystalOutputProofs.bands_of. rewrite nth_error_map, (nth_error_nth' (seq 0 (p_points p)) 0) by (rewrite seq_length; lia).
  now rewrite seq_nth by lia.
Qed.
Lemma expansion_rows (e : flmat) E : CrystalCellProps.nums e E -> forall i j, i < 3 -> j < 3 -> e i j = nth j (nth i (dim_rows (rows E)) []) NaN.
Proof. intros H i j Hi Hj. rewrite (H i j Hi Hj). destruct i as [|[|[|i]]]; try lia; destruct j as [|[|[|j]]]; try lia; reflexivity. Qed.
Lemma prints_read lines p : prints lines p -> exists d, CrystalModel.phonon_load lines = CrystalModel.Ok (Some d, CrystalModel.Completed) /\ same_numbers (crystal_set d) (record p).
Proof.
  intros [n A x F G|n nq A E x q w m F D].
  - destruct (CrystalOutputProofs.gamma_read _ _ _ _ _ G) as (d & L & Na & Nm & Di & Me & V & En & B). exists d. split; [exact L|].
    constructor; cbn [crystal_set record atoms expansion qnumber coords mesh qweights modes cell_volume cell_energy bands]; cbn [p_atoms p_points p_expansion p_mesh p_coords p_weight p_volume p_energy p_frequency];
      cbn [QhaWriterModel.natom QhaWriterModel.dim QhaWriterModel.qpoints QhaWriterModel.qcoords QhaWriterModel.shrinkf QhaWriterModel.weights QhaWriterModel.nphonon QhaWriterModel.volume QhaWriterModel.energy QhaWriterModel.phonons];
      rewrite ?Na, ?Nm, ?Me, ?V, ?En, ?B, ?Di; try reflexivity.
    apply (expansion_rows _ CrystalCellProps.id3). intros i j _ _. unfold CrystalModel.identity3, CrystalCellProps.id3. now destruct (i =? j).
  - destruct (CrystalOutputProofs.dispersion_read _ _ _ _ _ _ _ _ _ _ D) as (d & L & Na & Nm & Di & Me & V & En & B). exists d. split; [exact L|].
    constructor; cbn [crystal_set record atoms expansion qnumber coords mesh qweights modes cell_volume cell_energy bands]; cbn [p_atoms p_points p_expansion p_mesh p_coords p_weight p_volume p_energy p_frequency];
      cbn [QhaWriterModel.natom QhaWriterModel.dim QhaWriterModel.qpoints QhaWriterModel.qcoords QhaWriterModel.shrinkf QhaWriterModel.weights QhaWriterModel.nphonon QhaWriterModel.volume QhaWriterModel.energy QhaWriterModel.phonons];
      rewrite ?Na, ?Nm, ?Me, ?V, ?En, ?B; cbn [CrystalModel.qpoints CrystalModel.qcoords CrystalModel.qweights CrystalModel.shrink]; rewrite ?map_map; try reflexivity.
    + now apply (expansion_rows _ E).
    + unfold record. cbn [QhaWriterModel.qcoords p_points p_coords]. rewrite map_map. reflexivity.
    + unfold record. cbn [QhaWriterModel.weights p_points p_weight]. rewrite map_map. reflexivity.
Qed.

Section Command.
Variable t : texts.
Variable is_text : string -> bool.
Variable yaml_load : string -> QhaReaderModel.parsed.
Variable xml_load : string -> PhonopyModel.xml.
Variable K : UnitsModel.constants.
Notation command := (ha_inpgen t is_text yaml_load xml_load K).
Notation reading := (reading_of is_text yaml_load xml_load K).
Notation readable := (readable is_text yaml_load xml_load K).

(** The files to be read: the one named, or those in the lines of the list. *)
Definition inputs (w : world) (filename : string) (is_list : bool) (files : list string) : Prop :=
  exists content, fs w filename = File content /\
    if is_list then is_text content = true /\ files = map rstrip (readlines content) else files = [filename].
(** The messages up to the question *)
Definition session (files : list string) (ref : Z) (out : string) : list (kind * string) :=
  (Highlight, title t) :: done_lines files 0 ref ++ [(Plain, "Preparing the input file for Quantas: '" +++ out +++ "'")].
Definition asked : kind * string := (Question, nl +++ "Please, enter a short description for the input file: ").
Definition credits : list (kind * string) := [(Highlight, bib_header t); (Highlight, own_citation t); (Highlight, bib_footer t); (Highlight, finish t)].

Lemma inputs_run k w filename il files outfile ref answer ds : k <> CrystalQha -> inputs w filename il files -> Forall2 (readable k (fs w)) files ds ->
  command k filename outfile il ref answer w =
  Some (generate t k (output_path outfile) ref answer (Several ds) (showing w ((Highlight, title t) :: done_lines files 0 ref))).
Proof.
  intros Kq (content & Ef & I0) F. rewrite (runs t is_text yaml_load xml_load K k filename outfile il ref answer w content Ef).
  assert (E : read is_text yaml_load xml_load K k filename content il ref (showing w [opening t]) =
     Some (Ok (inl (Several ds)), showing w ((Highlight, title t) :: done_lines files 0 ref))).
  { pose proof (reads_all is_text yaml_load xml_load K k files ds 0 ref [] (showing w [opening t]) F []) as X. rewrite app_nil_r in X. cbn [app] in X.
    unfold read. destruct il.
    - destruct I0 as (T & ->). assert (is_qha k = false) as -> by (now destruct k). rewrite T, X. cbn [read_files]. rewrite showing_app. reflexivity.
    - subst files. rewrite X. cbn [read_files]. rewrite showing_app. reflexivity. }
  now rewrite E.
Qed.
(** ** The command of any interface, from files its reader understands *)
Lemma inpgen_writes k w filename il files outfile ref job ds os ls : k <> CrystalQha -> inputs w filename il files ->
  Forall2 (readable k (fs w)) files ds -> Forall2 same_numbers ds os -> QhaWriterModel.multiple_lines os job ref = QhaReaderModel.Ok ls ->
  fs w (output_path outfile) <> Dir ->
  command k filename outfile il ref (Ok job) w = Some (Ok tt,
    {| fs := update (fs w) (output_path outfile) (File (join_lines ls)); screen := screen w ++ session files ref (output_path outfile) ++ asked :: credits |}).
Proof.
  intros Kq I0 F S0 L D. rewrite (inputs_run k w filename il files outfile ref (Ok job) ds Kq I0 F). f_equal.
  assert (M : many_lines ds job ref = QhaReaderModel.Ok ls) by now rewrite (many_agrees _ _ job ref S0).
  assert (Rf : (ref <= Z.of_nat (List.length ds))%Z).
  { unfold QhaWriterModel.multiple_lines in L. destruct (QhaWriterModel.py_item os ref) eqn:P; [|discriminate].
    assert (Le : List.length ds = List.length os) by (clear - S0; induction S0; cbn [List.length]; congruence). rewrite Le.
    unfold QhaWriterModel.py_item in P. destruct (Z.ltb_spec ref 0); [lia|]. unfold QhaWriterModel.item in P.
    destruct (nth_error os (Z.to_nat ref)) eqn:N; [|discriminate]. assert (Z.to_nat ref < List.length os) by (apply nth_error_Some; congruence). lia. }
  destruct (generates t k (output_path outfile) ref (Ok job) (Several ds) (showing w ((Highlight, title t) :: done_lines files 0 ref))) as [(e & G & C)|(j & ls' & A & B & C & G)].
  - now destruct k.
  - exact Rf.
  - exfalso. destruct C as [C|(j & C & [C'|(_ & C')])]; [discriminate| |now apply D]. injection C as <-. cbn [made] in C'. congruence.
  - injection A as <-. cbn [made] in B. rewrite M in B. injection B as <-. rewrite G. unfold showing, session, asked, credits, preparing, farewells, question. cbn [fs screen].
    do 2 f_equal. rewrite <- !app_assoc. cbn [app]. rewrite <- app_assoc. reflexivity.
Qed.
(** ** From CRYSTAL outputs *)
Definition output_on_disk (w : world) (f : string) (p : printed) : Prop := exists content, fs w f = File content /\ is_text content = true /\ prints (readlines content) p.
Lemma output_readable w f p : output_on_disk w f p -> exists d, readable Crystal (fs w) f d /\ same_numbers d (record p).
Proof.
  intros (content & E & T & P0). destruct (prints_read _ _ P0) as (d & L & S0). exists (crystal_set d). split; [|exact S0].
  exists content. split; [exact E|]. cbn [reading_of]. unfold crystal_reading. rewrite T, L. reflexivity.
Qed.
Lemma outputs_readable w files ps : Forall2 (output_on_disk w) files ps -> exists ds, Forall2 (readable Crystal (fs w)) files ds /\ Forall2 same_numbers ds (map record ps).
Proof.
  induction 1 as [|f p files ps O _ (ds & A & B)]; [exists []; split; constructor|].
  destruct (output_readable w f p O) as (d & Rd & Sd). exists (d :: ds). split; now constructor.
Qed.
Lemma prints_points lines p : prints lines p -> 0 < p_points p.
Proof. intros [n A x F G|n nq A E x q w m F D]; cbn [p_points]; [lia|apply D]. Qed.
(** A set of outputs one of which is the reference: the others have at least
    its q points and atoms. *)
Record a_set (w : world) (files : list string) (ps : list printed) (ref : Z) (r : printed) : Prop := {
  s_outputs : Forall2 (output_on_disk w) files ps;
  s_reference : nth_error ps (if (ref <? 0)%Z then Z.to_nat (Z.of_nat (List.length ps) + ref) else Z.to_nat ref) = Some r;
  s_negative : (- Z.of_nat (List.length ps) <= ref)%Z;
  s_atoms : 0 < p_atoms r;
  s_alike : forall p, In p ps -> p_points r <= p_points p /\ p_atoms r <= p_atoms p }.
Lemma set_item w files ps ref r : a_set w files ps ref r -> QhaWriterModel.py_item (map record ps) ref = QhaReaderModel.Ok (record r).
Proof.
  intros [_ R0 N _ _]. unfold QhaWriterModel.py_item. rewrite map_length. unfold QhaWriterModel.item.
  destruct (Z.ltb_spec ref 0); [destruct (Z.ltb_spec (Z.of_nat (List.length ps) + ref) 0); [lia|]|]; rewrite nth_error_map, R0; reflexivity.
Qed.
Lemma set_member w files ps ref r : a_set w files ps ref r -> In r ps /\ 0 < p_points r.
Proof.
  intros S0. pose proof (nth_error_In _ _ (s_reference _ _ _ _ _ S0)) as I0. split; [exact I0|]. clear - S0 I0. destruct S0 as [F _ _ _ _].
  induction F as [|f p files ps (c & _ & _ & P0) _ IH]; [contradiction|]. destruct I0 as [->|I0]; [now apply prints_points in P0|now apply IH].
Qed.
Lemma set_covers w files ps ref r : a_set w files ps ref r -> Forall (QhaWriterProps.covers (p_points r) (p_atoms r * 3)) (map record ps).
Proof. intros S0. apply Forall_forall. intros o I0. apply in_map_iff in I0. destruct I0 as (p & <- & I0). destruct (s_alike _ _ _ _ _ S0 p I0). apply record_covers; lia. Qed.
Lemma set_written w filename il files outfile ref job ps r : inputs w filename il files -> a_set w files ps ref r -> QhaWriterProofs.plain job ->
  fs w (output_path outfile) <> Dir ->
  exists ls y, QhaWriterModel.multiple_lines (map record ps) job ref = QhaReaderModel.Ok ls /\ YamlSpec.yaml_of (join_lines ls) = Some y /\
    QhaReaderModel.jobname y = QhaReaderModel.Ok (strip job) /\
    QhaWriterProps.read_back y (p_atoms r) (rows (p_expansion r)) (p_points r) (map p_volume ps) (map p_energy ps) (p_weight r)
      (fun i j k => nth k (map (fun p => p_frequency p i j) ps) 0%R) /\
    command Crystal filename outfile il ref (Ok job) w = Some (Ok tt,
      {| fs := update (fs w) (output_path outfile) (File (join_lines ls)); screen := screen w ++ session files ref (output_path outfile) ++ asked :: credits |}).
Proof.
  intros I0 S0 J D. destruct (set_member _ _ _ _ _ S0) as (Ir & Q).
  destruct (QhaWriterProps.C60_roundtrip (map record ps) job ref (record r) (p_atoms r) (set_item _ _ _ _ _ S0) J eq_refl eq_refl (s_atoms _ _ _ _ _ S0) Q) as (ls & y & L & Y & Jn & RB).
  { cbn [record QhaWriterModel.qpoints QhaWriterModel.qcoords]. now rewrite map_length, seq_length. }
  { cbn [record QhaWriterModel.qpoints QhaWriterModel.weights]. now rewrite map_length, seq_length. }
  { now apply set_covers in S0. }
  exists ls, y. split; [exact L|]. split; [exact Y|]. split; [exact Jn|]. split.
  - destruct RB as (A1 & A2 & A3 & (v & V1 & V2) & (e & E1 & E2) & (m & M1 & M2) & (u & U1 & U2)). cbn [record QhaWriterModel.qpoints QhaWriterModel.weights QhaWriterModel.dim] in *.
    rewrite map_map in V2, E2. cbn [record QhaWriterModel.volume QhaWriterModel.energy] in V2, E2.
    split; [exact A1|]. split; [exact A2|]. split; [exact A3|]. split; [now exists v|]. split; [now exists e|]. split.
    + exists m. split; [exact M1|]. intros i j k Hi Hj Hk. rewrite map_length in Hk. destruct (M2 i j k Hi Hj ltac:(now rewrite !map_length)) as (x & X1 & X2). exists x. split; [exact X1|].
      rewrite map_map in X2. destruct (nth_error ps k) as [p|] eqn:Ek; [|apply nth_error_None in Ek; lia].
      rewrite (nth_error_nth _ _ _ (map_nth_error (fun p => p_frequency p i j) _ _ Ek)). rewrite (nth_error_nth _ _ _ (map_nth_error (fun x => QhaWriterProps.frequency (record x) i j) _ _ Ek)) in X2.
      destruct (s_alike _ _ _ _ _ S0 p (nth_error_In _ _ Ek)). rewrite record_frequency in X2 by lia. exact X2.
    + exists u. split; [exact U1|]. intros i Hi. rewrite (U2 i Hi). now rewrite seq_nth_in.
  - destruct (outputs_readable _ _ _ (s_outputs _ _ _ _ _ S0)) as (ds & F & SN). now apply (inpgen_writes Crystal w filename il files outfile ref job ds (map record ps) ls).
Qed.
(** The file written holds, for every output in order, the volume, energy and
    frequencies it prints, within half a unit of the last digit written, and the
    atoms, expansion, q points and (truncated) weights of the reference; it is
    the only file changed; the files, the reference and the path written are
    announced. *)
Theorem C100_crystal w filename il files outfile ref job ps r : inputs w filename il files -> a_set w files ps ref r -> QhaWriterProofs.plain job ->
  fs w (outfile +++ ".yaml") <> Dir ->
  exists v text y, command Crystal filename outfile il ref (Ok job) w = Some (Ok tt, v) /\
    fs v (outfile +++ ".yaml") = File text /\ (forall p, p <> outfile +++ ".yaml" -> fs v p = fs w p) /\
    YamlSpec.yaml_of text = Some y /\ QhaReaderModel.jobname y = QhaReaderModel.Ok (strip job) /\
    QhaWriterProps.read_back y (p_atoms r) (rows (p_expansion r)) (p_points r) (map p_volume ps) (map p_energy ps) (p_weight r)
      (fun i j k => nth k (map (fun p => p_frequency p i j) ps) 0%R) /\
    screen v = screen w ++ (Highlight, title t) :: done_lines files 0 ref ++
      [(Plain, "Preparing the input file for Quantas: '" +++ (outfile +++ ".yaml") +++ "'"); (Question, nl +++ "Please, enter a short description for the input file: ");
       (Highlight, bib_header t); (Highlight, own_citation t); (Highlight, bib_footer t); (Highlight, finish t)].
Proof.
  intros I0 S0 J D. destruct (set_written w filename il files outfile ref job ps r I0 S0 J D) as (ls & y & _ & Y & Jn & RB & C).
  eexists _, _, y. split; [exact C|]. cbn [fs screen]. unfold update, output_path. split; [now rewrite String.eqb_refl|].
  split; [intros p N; destruct (String.eqb_spec p (outfile +++ ".yaml")); [contradiction|reflexivity]|]. split; [exact Y|]. split; [exact Jn|]. split; [exact RB|].
  unfold session, asked, credits. cbn [app]. rewrite <- app_assoc. reflexivity.
Qed.
(** The files are announced in order; the one at position ref, and no other, as
    the reference. *)
Theorem C100_announced files ref c f : nth_error files c = Some f ->
  nth_error (done_lines files 0 ref) (2 * c) = Some (Plain, "  - " +++ f +++ " ...") /\
  (ref = Z.of_nat c -> nth_error (done_lines files 0 ref) (2 * c + 1) = Some (Plain, " Done! (Reference)")) /\
  (ref <> Z.of_nat c -> nth_error (done_lines files 0 ref) (2 * c + 1) = Some (Plain, " Done!")).
Proof.
  assert (G : forall files c0 c f, nth_error files c = Some f ->
    nth_error (done_lines files c0 ref) (2 * c) = Some (Plain, "  - " +++ f +++ " ...") /\
    nth_error (done_lines files c0 ref) (2 * c + 1) = Some (Plain, if (Z.of_nat (c0 + c) =? ref)%Z then " Done! (Reference)" else " Done!")).
  { clear. induction files as [|g files IH]; intros c0 c f E; [now destruct c|]. destruct c as [|c].
    - injection E as <-. rewrite Nat.add_0_r. split; reflexivity.
    - destruct (IH (S c0) c f E) as (A & B). replace (2 * S c) with (S (S (2 * c))) by lia. replace (S (S (2 * c)) + 1) with (S (S (2 * c + 1))) by lia.
      replace (c0 + S c) with (S c0 + c) by lia. split; assumption. }
  intros E. destruct (G files 0 c f E) as (A & B). split; [exact A|]. rewrite B. cbn [Nat.add]. split; intros H.
  - subst ref. now rewrite Z.eqb_refl.
  - destruct (Z.eqb_spec (Z.of_nat c) ref); [congruence|reflexivity].
Qed.
(** A negative reference counts from the end (C100_crystal); no file is then
    announced as the reference. *)
Theorem C100_negative_reference_refuted files ref : (ref < 0)%Z -> ~ In (Plain, " Done! (Reference)") (done_lines files 0 ref).
Proof.
  intros N. generalize 0 as c. induction files as [|f files IH]; intros c I0; [contradiction|]. cbn [done_lines] in I0. apply in_app_iff in I0. destruct I0 as [I0|I0]; [|now apply IH in I0].
  unfold read_lines in I0. destruct (Z.eqb_spec (Z.of_nat c) ref); [lia|]. destruct I0 as [I0|[I0|[]]]; discriminate.
Qed.
(** The positions of the q points in the file: coordinates divided by the mesh. *)
Theorem C100_positions w filename il files outfile ref job ps r : inputs w filename il files -> a_set w files ps ref r -> QhaWriterProofs.plain job ->
  fs w (outfile +++ ".yaml") <> Dir ->
  exists v text y l, command Crystal filename outfile il ref (Ok job) w = Some (Ok tt, v) /\ fs v (outfile +++ ".yaml") = File text /\ YamlSpec.yaml_of text = Some y /\
    QhaReaderModel.get "phonon" y = QhaReaderModel.Ok (QhaReaderModel.YList l) /\ List.length l = p_points r /\
    forall i, i < p_points r -> exists z p a b c, nth_error l i = Some z /\ QhaReaderModel.get "q-position" z = QhaReaderModel.Ok p /\
      QhaReaderModel.get_float p = QhaReaderModel.Ok (QhaReaderModel.Array [Num a; Num b; Num c]) /\
      FormatProofs.rounded 7 (p_coords r i 0 / p_mesh r 0) a /\ FormatProofs.rounded 7 (p_coords r i 1 / p_mesh r 1) b /\ FormatProofs.rounded 7 (p_coords r i 2 / p_mesh r 2) c.
Proof.
  intros I0 S0 J D. destruct (set_written w filename il files outfile ref job ps r I0 S0 J D) as (ls & y & L & Y & _ & _ & C).
  destruct (set_member _ _ _ _ _ S0) as (Ir & Q).
  rewrite (QhaWriterProps.multiple_shape (map record ps) job ref (record r) (set_item _ _ _ _ _ S0)) in L; cycle 1.
  { cbn [record QhaWriterModel.qpoints QhaWriterModel.qcoords]. now rewrite map_length, seq_length. }
  { cbn [record QhaWriterModel.qpoints QhaWriterModel.weights]. now rewrite map_length, seq_length. }
  { now apply set_covers in S0. }
  injection L as L. rewrite <- L in Y. rewrite QhaWriterProofs.written_document with (yj := QhaReaderModel.YStr (strip job)) in Y; cycle 1.
  { apply QhaWriterProofs.plain_line, J. }
  { intros d. apply QhaWriterProofs.job_plain, J. }
  1, 2: destruct ps; [contradiction|discriminate].
  { intros i j. destruct ps; [contradiction|discriminate]. }
  { cbn [record QhaWriterModel.nphonon]. pose proof (s_atoms _ _ _ _ _ S0). lia. }
  { exact Q. }
  injection Y as Y. eexists _, _, y, _. split; [exact C|]. cbn [fs]. split; [unfold update, output_path; now rewrite String.eqb_refl|]. rewrite <- L.
  split; [rewrite QhaWriterProofs.written_document with (yj := QhaReaderModel.YStr (strip job)); [now rewrite Y|..]|].
  { apply QhaWriterProofs.plain_line, J. }
  { intros d. apply QhaWriterProofs.job_plain, J. }
  1, 2: destruct ps; [contradiction|discriminate].
  { intros i j. destruct ps; [contradiction|discriminate]. }
  { cbn [record QhaWriterModel.nphonon]. pose proof (s_atoms _ _ _ _ _ S0). lia. }
  { exact Q. }
  split; [rewrite <- Y; reflexivity|]. cbn [record QhaWriterModel.qpoints]. split; [now rewrite map_length, seq_length|].
  intros i Hi. exists (QhaWriterProofs.y_q (p_atoms r * 3) (fun i => nth i (QhaWriterModel.qcoords (record r)) (0, 0, 0)%R) (QhaWriterModel.shrinkf (record r)) (fun i => nth i (QhaWriterModel.weights (record r)) 0%R)
    (fun i j => map (fun d => QhaWriterProps.frequency d i j) (map record ps)) i).
  eexists _, _, _, _. split.
  { rewrite nth_error_map, (nth_error_nth' (seq 0 (p_points r)) 0) by now rewrite seq_length. rewrite seq_nth by exact Hi. reflexivity. }
  split; [reflexivity|]. cbn [record QhaWriterModel.qcoords QhaWriterModel.shrinkf]. rewrite (seq_nth_in (fun i => three (p_coords r i))) by exact Hi.
  unfold three, QhaWriterProofs.quotient, QhaWriterProofs.triple_list. split; [apply (QhaWriterProps.float_list (FormatProofs.fix_value 7) [_; _; _])|].
  repeat split; apply FormatProofs.fix_rounded.
Qed.
(** Whatever was at the path of the output is replaced, and nobody is asked: the
    session is the same with and without it. *)
Theorem C100_replaced_refuted w filename il files outfile ref job ps r old : inputs w filename il files -> a_set w files ps ref r -> QhaWriterProofs.plain job ->
  fs w (outfile +++ ".yaml") = File old ->
  exists v text y, command Crystal filename outfile il ref (Ok job) w = Some (Ok tt, v) /\ fs v (outfile +++ ".yaml") = File text /\ YamlSpec.yaml_of text = Some y /\
    filter (fun m => match fst m with Question => true | _ => false end) (skipn (List.length (screen w)) (screen v)) =
    [(Question, nl +++ "Please, enter a short description for the input file: ")].
Proof.
  intros I0 S0 J D. destruct (C100_crystal w filename il files outfile ref job ps r I0 S0 J ltac:(congruence)) as (v & text & y & C & F & _ & Y & _ & _ & SC).
  exists v, text, y. split; [exact C|]. split; [exact F|]. split; [exact Y|]. rewrite SC.
  rewrite skipn_app, skipn_all, Nat.sub_diag. cbn [skipn app filter fst]. 
  assert (X : forall files c, filter (fun m => match fst m with Question => true | _ => false end) (done_lines files c ref) = []).
  { clear. induction files as [|f files IH]; intros c; [reflexivity|]. cbn [done_lines]. unfold read_lines. cbn [app filter fst]. apply IH. }
  assert (Y0 : forall A (f : A -> bool) a b, filter f (a ++ b) = filter f a ++ filter f b).
  { clear. intros A f a b. induction a as [|x a IH]; [reflexivity|]. cbn [app filter]. rewrite IH. now destruct (f x). }
  rewrite Y0, X. reflexivity.
Qed.

(** ** References out of range *)
Lemma generate_refuses k out ref answer ds w : is_qha k = false -> (Z.of_nat (List.length ds) < ref)%Z ->
  generate t k out ref answer (Several ds) w = (Ok tt, showing w [preparing out; (Error, error_banner t); (Error, "Invalid reference provided")]).
Proof.
  intros Q L. transitivity (complain t "Invalid reference provided" (showing w [preparing out])).
  - unfold generate. rewrite Q. destruct (Z.ltb_spec (Z.of_nat (List.length ds)) ref); [|lia]. reflexivity.
  - now rewrite complain_runs, showing_app.
Qed.
(** More than the number of files: refused, nothing asked. *)
Theorem C100_invalid_reference k w filename il files outfile ref answer ds : k <> CrystalQha -> inputs w filename il files -> Forall2 (readable k (fs w)) files ds ->
  (Z.of_nat (List.length files) < ref)%Z ->
  command k filename outfile il ref answer w = Some (Ok tt, showing w (session files ref (outfile +++ ".yaml") ++ [(Error, error_banner t); (Error, "Invalid reference provided")])).
Proof.
  intros Kq I0 F H. rewrite (inputs_run k w filename il files outfile ref answer ds Kq I0 F).
  assert (L : List.length ds = List.length files) by (clear - F; induction F; cbn [List.length]; congruence).
  rewrite generate_refuses by (try (now destruct k); lia). rewrite showing_app. unfold session, output_path, preparing. cbn [app]. rewrite <- app_assoc. reflexivity.
Qed.
(** Exactly the number of files (also with an empty list), or too far below
    zero: the description is asked for, then an IndexError; nothing is written. *)
Theorem C100_reference_refuted k w filename il files outfile ref job ds : k <> CrystalQha -> inputs w filename il files -> Forall2 (readable k (fs w)) files ds ->
  ref = Z.of_nat (List.length files) \/ (ref < - Z.of_nat (List.length files))%Z ->
  command k filename outfile il ref (Ok job) w = Some (Raises "IndexError", showing w (session files ref (outfile +++ ".yaml") ++ [asked])).
Proof.
  intros Kq I0 F H. rewrite (inputs_run k w filename il files outfile ref (Ok job) ds Kq I0 F).
  assert (L : List.length ds = List.length files) by (clear - F; induction F; cbn [List.length]; congruence).
  assert (M : many_lines ds job ref = QhaReaderModel.Raises "IndexError").
  { unfold many_lines, QhaWriterModel.py_item. rewrite L. destruct (Z.ltb_spec ref 0) as [N|N].
    - destruct (Z.ltb_spec (Z.of_nat (List.length files) + ref) 0); [reflexivity|lia].
    - unfold QhaWriterModel.item. rewrite (proj2 (nth_error_None ds (Z.to_nat ref))) by lia. reflexivity. }
  f_equal. destruct (generates t k (output_path outfile) ref (Ok job) (Several ds) (showing w ((Highlight, title t) :: done_lines files 0 ref))) as [(e & G & C)|(j & ls' & A & B & _)].
  - now destruct k.
  - rewrite L. lia.
  - destruct C as [C|(j & C & [C'|(-> & C')])]; [discriminate| |].
    + injection C as <-. cbn [made] in C'. rewrite M in C'. injection C' as <-. rewrite G. unfold session, asked, preparing, output_path, question. rewrite showing_app. cbn [app]. now rewrite <- app_assoc.
    + injection C as <-. exfalso. revert G. unfold generate. assert (is_qha k = false) as -> by now destruct k. destruct (Z.ltb_spec (Z.of_nat (List.length ds)) ref); [lia|].
      unfold bind at 1, echo, log, show. cbn [negb]. unfold write_lines, bind, show. rewrite M. discriminate.
  - exfalso. injection A as <-. cbn [made] in B. congruence.
Qed.

(** ** Whatever the input: what can be left behind *)
Lemma last_other (l m : list (kind * string)) a x : fst a <> Highlight -> l ++ [a] <> m ++ [(Highlight, x)].
Proof. intros N E. apply app_inj_tail in E. destruct E as (_ & ->). now apply N. Qed.
Definition outcome_of (out : string) (w : world) (answer : result string) (r : result unit) (v : world) : Prop :=
  exists l, screen v = screen w ++ l /\ (forall p, p <> out -> fs v p = fs w p) /\
  ((exists job ls m, answer = Ok job /\ r = Ok tt /\ fs w out <> Dir /\ fs v out = File (join_lines ls) /\ l = m ++ credits) \/
   (fs v out = fs w out /\ forall m, l <> m ++ [(Highlight, finish t)])).
(** Reading fails after the name of a file has been shown, or before anything. *)
Lemma reads_raise k files : forall c ref x w e v, read_files is_text yaml_load xml_load K k files c ref x w = Some (Raises e, v) ->
  exists l f, v = showing w (l ++ [(Plain, "  - " +++ f +++ " ...")]).
Proof.
  induction files as [|f files IH]; intros c ref x w e v E; [discriminate|]. cbn [read_files] in E. destruct (fs w f) as [|content|] eqn:Ef.
  - discriminate.
  - unfold and_then at 1, lift, show in E. destruct (reading k (fs w) f content) as [|e'|e'|d|q]; try discriminate.
    + injection E as _ <-. exists [], f. reflexivity.
    + apply IH in E. destruct E as (l & g & ->). exists (read_lines f (Z.of_nat c =? ref)%Z ++ l), g. unfold showing. cbn [fs screen]. rewrite <- !app_assoc. reflexivity.
    + apply IH in E. destruct E as (l & g & ->). exists (read_lines f false ++ l), g. unfold showing. cbn [fs screen]. rewrite <- !app_assoc. reflexivity.
  - unfold and_then, lift, show, raise in E. injection E as _ <-. exists [], f. reflexivity.
Qed.
Lemma outcome_unchanged out w answer r l a : fst a <> Highlight -> outcome_of out w answer r (showing w (l ++ [a])).
Proof. intros N. exists (l ++ [a]). split; [reflexivity|]. split; [reflexivity|]. right. split; [reflexivity|]. intros m. now apply last_other. Qed.
Lemma generate_outcome k out ref answer x w l r v : generate t k out ref answer x (showing w l) = (r, v) -> outcome_of out w answer r v.
Proof.
  assert (W : forall k, is_qha k = (match x with Single _ => true | Several _ => false end) ->
     (match x with Single _ => True | Several l => (ref <= Z.of_nat (List.length l))%Z end) -> generate t k out ref answer x (showing w l) = (r, v) -> outcome_of out w answer r v).
  { intros k' Q L E. destruct (generates t k' out ref answer x (showing w l) Q L) as [(e & G & _)|(job & ls & A & _ & D & G)]; rewrite G in E; injection E as <- <-.
    - rewrite showing_app. replace (l ++ [preparing out; (Question, question)]) with ((l ++ [preparing out]) ++ [(Question, question)]) by now rewrite <- app_assoc. now apply outcome_unchanged.
    - exists (l ++ preparing out :: (Question, question) :: farewells t). cbn [fs screen showing]. rewrite <- app_assoc. split; [reflexivity|]. split.
      + intros p N. unfold update. destruct (String.eqb_spec p out); [contradiction|reflexivity].
      + left. exists job, ls, (l ++ [preparing out; (Question, question)]). rewrite <- app_assoc. repeat split; try assumption. unfold update. now rewrite String.eqb_refl. }
  destruct x as [ds|c].
  - destruct (is_qha k) eqn:Q.
    + unfold generate. rewrite Q. unfold bind, echo, log, show, raise. cbn [negb]. intros E. injection E as <- <-.
      exists (l ++ [(Plain, "Preparing the input file for Quantas: '" +++ out +++ "'")]). cbn [fs screen showing]. rewrite <- app_assoc. split; [reflexivity|]. split; [reflexivity|]. right. split; [reflexivity|].
      intros m. now apply last_other.
    + destruct (Z.ltb_spec (Z.of_nat (List.length ds)) ref) as [G|G].
      * rewrite generate_refuses by assumption. intros E. injection E as <- <-. rewrite showing_app.
        replace (l ++ [preparing out; (Error, error_banner t); (Error, "Invalid reference provided")]) with ((l ++ [preparing out; (Error, error_banner t)]) ++ [(Error, "Invalid reference provided")]) by now rewrite <- app_assoc.
        now apply outcome_unchanged.
      * now apply W.
  - intros E. apply (W CrystalQha eq_refl I). exact E.
Qed.
Lemma outcome_complains out w answer l msg : outcome_of out w answer (Ok tt) (snd (complain t msg (showing w l))).
Proof.
  rewrite complain_runs. cbn [snd]. rewrite showing_app. replace (l ++ [(Error, error_banner t); (Error, msg)]) with ((l ++ [(Error, error_banner t)]) ++ [(Error, msg)]) by now rewrite <- app_assoc.
  now apply outcome_unchanged.
Qed.
(** For any files, options and answer: a command which ends has changed no file
    but its output, and this only by writing all lines of it, after an answer
    and as the last thing before the citations and the farewell; otherwise there
    is no farewell. *)
Theorem C100_only_output k filename outfile il ref answer w r v : command k filename outfile il ref answer w = Some (r, v) ->
  exists l, screen v = screen w ++ l /\ (forall p, p <> outfile +++ ".yaml" -> fs v p = fs w p) /\
  ((exists job ls m, answer = Ok job /\ r = Ok tt /\ fs w (outfile +++ ".yaml") <> Dir /\ fs v (outfile +++ ".yaml") = File (join_lines ls) /\
      l = m ++ [(Highlight, bib_header t); (Highlight, own_citation t); (Highlight, bib_footer t); (Highlight, finish t)]) \/
   (fs v (outfile +++ ".yaml") = fs w (outfile +++ ".yaml") /\ forall m, l <> m ++ [(Highlight, finish t)])).
Proof.
  intros E. change (outcome_of (output_path outfile) w answer r v). destruct (fs w filename) as [|content|] eqn:Ef.
  - unfold ha_inpgen in E. rewrite Ef in E. injection E as <- <-. exists []. rewrite app_nil_r. split; [reflexivity|]. split; [reflexivity|]. right. split; [reflexivity|]. now intros [|].
  - rewrite (runs t is_text yaml_load xml_load K k filename outfile il ref answer w content Ef) in E.
    destruct (read is_text yaml_load xml_load K k filename content il ref (showing w [opening t])) as [[[x|e] v1]|] eqn:Er; [| |discriminate].
    + destruct (read_frame _ _ _ _ _ _ _ _ _ _ _ _ Er) as (l & ->). rewrite showing_app in E. destruct x as [x|error].
      * apply (generate_outcome k _ ref answer x w ([opening t] ++ l)). congruence.
      * rewrite complain_runs in E. injection E as <- <-. pose proof (outcome_complains (output_path outfile) w answer ([opening t] ++ l) error) as X. rewrite complain_runs in X. exact X.
    + destruct (read_frame _ _ _ _ _ _ _ _ _ _ _ _ Er) as (l & El). subst v1. rewrite showing_app in E.
      destruct (String.eqb e "KeyError"); [|destruct (String.eqb_spec e "UnicodeDecodeError") as [->|N]].
      * rewrite complain_runs in E. injection E as <- <-. match goal with |- outcome_of _ _ _ _ (showing _ [(Error, _); (Error, ?m)]) => pose proof (outcome_complains (output_path outfile) w answer ([opening t] ++ l) m) as X end. rewrite complain_runs in X. exact X.
      * rewrite complain_runs in E. injection E as <- <-. match goal with |- outcome_of _ _ _ _ (showing _ [(Error, _); (Error, ?m)]) => pose proof (outcome_complains (output_path outfile) w answer ([opening t] ++ l) m) as X end. rewrite complain_runs in X. exact X.
      * injection E as <- <-.
        assert (X : exists l' f, showing w ([opening t] ++ l) = showing w (([opening t] ++ l') ++ [(Plain, "  - " +++ f +++ " ...")])).
        { unfold read in Er. destruct il; [destruct (is_qha k); [discriminate|destruct (is_text content)]|].
          - apply reads_raise in Er. destruct Er as (l' & f & X). exists l', f. now rewrite <- app_assoc, <- (showing_app w [opening t] (l' ++ _)), <- (showing_app w [opening t] l), X.
          - injection Er as <- _. contradiction.
          - apply reads_raise in Er. destruct Er as (l' & f & X). exists l', f. now rewrite <- app_assoc, <- (showing_app w [opening t] (l' ++ _)), <- (showing_app w [opening t] l), X. }
        destruct X as (l' & f & X). change (outcome_of (output_path outfile) w answer (Raises e) (showing w ([opening t] ++ l))). rewrite X. now apply outcome_unchanged.
  - unfold ha_inpgen in E. rewrite Ef in E. unfold and_then, lift, echo_highlight, log, show in E. cbn [negb] in E. injection E as <- <-.
    pose proof (outcome_complains (output_path outfile) w answer [(Highlight, title t)] ("'" +++ filename +++ "' is not a file")) as X. exact X.
Qed.

(** ** What is refused, with which words *)
Theorem C100_not_a_file k filename outfile il ref answer w : fs w filename = Dir ->
  command k filename outfile il ref answer w = Some (Ok tt, showing w [(Highlight, title t); (Error, error_banner t); (Error, "'" +++ filename +++ "' is not a file")]).
Proof. intros E. unfold ha_inpgen. rewrite E. transitivity (Some (complain t ("'" +++ filename +++ "' is not a file") (showing w [(Highlight, title t)]))); [reflexivity|]. now rewrite complain_runs, showing_app. Qed.
Theorem C100_qha_list filename outfile ref answer w content : fs w filename = File content ->
  command CrystalQha filename outfile true ref answer w =
  Some (Ok tt, showing w [(Highlight, title t); (Error, error_banner t); (Error, "Only one CRYSTAL output file for --crystal-qha interface")]).
Proof. intros E. rewrite (runs t is_text yaml_load xml_load K _ filename outfile true ref answer w content E). cbn [read is_qha]. unfold lift, ret. now rewrite complain_runs, showing_app. Qed.
(** The first file of those to be read which cannot be used *)
Lemma stops_at k w filename il good bad rest outfile ref answer ds : k <> CrystalQha -> inputs w filename il (good ++ bad :: rest) -> Forall2 (readable k (fs w)) good ds ->
  let shown := (Highlight, title t) :: done_lines good 0 ref in
  command k filename outfile il ref answer w =
  match fs w bad with
  | Absent => Some (complain t ("File " +++ bad +++ " does not exists") (showing w shown))
  | n => match (match n with File content => reading k (fs w) bad content | _ => Threw "IsADirectoryError" end) with
         | Endless => None
         | Threw e => let v := showing w (shown ++ [(Plain, "  - " +++ bad +++ " ...")]) in
             if String.eqb e "KeyError" then Some (complain t ("File '" +++ filename +++ "' does not appear as a valid input file") v)
             else if String.eqb e "UnicodeDecodeError" then Some (complain t ("File '" +++ filename +++ "' is in binary format") v)
             else Some (Raises e, v)
         | Refused e => Some (complain t e (showing w (shown ++ [(Plain, "  - " +++ bad +++ " ...")])))
         | _ => command k filename outfile il ref answer w
         end
  end.
Proof.
  intros Kq (content & Ef & I0) F shown. rewrite (runs t is_text yaml_load xml_load K k filename outfile il ref answer w content Ef).
  assert (E : read is_text yaml_load xml_load K k filename content il ref (showing w [opening t]) =
     read_files is_text yaml_load xml_load K k (bad :: rest) (List.length good) ref (Several ds) (showing w shown)).
  { pose proof (reads_all is_text yaml_load xml_load K k good ds 0 ref [] (showing w [opening t]) F (bad :: rest)) as X. cbn [app Nat.add] in X.
    unfold read. destruct il.
    - destruct I0 as (T & <-). assert (is_qha k = false) as -> by (now destruct k). rewrite T, X. now rewrite showing_app.
    - rewrite <- I0, X. now rewrite showing_app. }
  rewrite E. cbn [read_files]. change (fs (showing w shown) bad) with (fs w bad). change (fs (showing w shown)) with (fs w).
  assert (V : {| fs := fs (showing w shown); screen := screen (showing w shown) ++ [(Plain, "  - " +++ bad +++ " ...")] |} = showing w (shown ++ [(Plain, "  - " +++ bad +++ " ...")])).
  { unfold showing. cbn [fs screen]. now rewrite <- app_assoc. }
  destruct (fs w bad) as [|c|] eqn:Eb.
  - reflexivity.
  - unfold and_then at 1, lift, show. destruct (reading k (fs w) bad c) as [|e|e|d|q]; try reflexivity.
    + unfold raise. rewrite V. reflexivity.
    + unfold ret. rewrite V. reflexivity.
  - unfold and_then, lift, show, raise. rewrite V. reflexivity.
Qed.
Theorem C100_missing_file k w filename il good bad rest outfile ref answer ds : k <> CrystalQha -> inputs w filename il (good ++ bad :: rest) ->
  Forall2 (readable k (fs w)) good ds -> fs w bad = Absent ->
  command k filename outfile il ref answer w = Some (Ok tt, showing w ((Highlight, title t) :: done_lines good 0 ref ++ [(Error, error_banner t); (Error, "File " +++ bad +++ " does not exists")])).
Proof. intros Kq I0 F E. rewrite (stops_at k w filename il good bad rest outfile ref answer ds Kq I0 F), E, complain_runs, showing_app. reflexivity. Qed.
(** A text without frequencies among the outputs: refused after its name. *)
Theorem C100_no_frequencies w filename il good bad rest outfile ref answer ds content : inputs w filename il (good ++ bad :: rest) ->
  Forall2 (readable Crystal (fs w)) good ds -> fs w bad = File content -> is_text content = true ->
  CrystalModel.has CrystalOutputSpec.frequencies_title (readlines content) = false ->
  command Crystal filename outfile il ref answer w = Some (Ok tt, showing w ((Highlight, title t) :: done_lines good 0 ref ++
    [(Plain, "  - " +++ bad +++ " ..."); (Error, error_banner t); (Error, "This does not appear to be a CRYSTAL14/17 output " +++ nl +++ "related to phonon calculations")])).
Proof.
  intros I0 F E T N. rewrite (stops_at Crystal w filename il good bad rest outfile ref answer ds ltac:(discriminate) I0 F), E. cbn [reading_of]. unfold crystal_reading. rewrite T. cbn [negb].
  unfold CrystalModel.phonon_load. change CrystalModel.frequency_calculation with CrystalOutputSpec.frequencies_title. rewrite N. cbn [negb]. rewrite complain_runs, showing_app. cbn [app]. rewrite <- app_assoc. reflexivity.
Qed.
(** A binary file among the outputs of a list: the message names the list. *)
Theorem C100_binary_refuted w filename il good bad rest outfile ref answer ds content : inputs w filename il (good ++ bad :: rest) ->
  Forall2 (readable Crystal (fs w)) good ds -> fs w bad = File content -> is_text content = false ->
  command Crystal filename outfile il ref answer w = Some (Ok tt, showing w ((Highlight, title t) :: done_lines good 0 ref ++
    [(Plain, "  - " +++ bad +++ " ..."); (Error, error_banner t); (Error, "File '" +++ filename +++ "' is in binary format")])).
Proof.
  intros I0 F E T. rewrite (stops_at Crystal w filename il good bad rest outfile ref answer ds ltac:(discriminate) I0 F), E. cbn [reading_of]. unfold crystal_reading. rewrite T. cbn [negb String.eqb Ascii.eqb Bool.eqb].
  cbv zeta. rewrite complain_runs, showing_app. cbn [app]. rewrite <- app_assoc. reflexivity.
Qed.
(** A directory among the files of a list is an exception. *)
Theorem C100_directory_refuted k w filename il good bad rest outfile ref answer ds : k <> CrystalQha -> inputs w filename il (good ++ bad :: rest) ->
  Forall2 (readable k (fs w)) good ds -> fs w bad = Dir ->
  command k filename outfile il ref answer w = Some (Raises "IsADirectoryError", showing w (((Highlight, title t) :: done_lines good 0 ref) ++ [(Plain, "  - " +++ bad +++ " ...")])).
Proof. intros Kq I0 F E. rewrite (stops_at k w filename il good bad rest outfile ref answer ds Kq I0 F), E. reflexivity. Qed.
(** An output of the zone centre whose table ends before all modes are listed:
    the command never ends. *)
Theorem C100_endless_refuted w filename il good bad rest outfile ref answer ds content n A x i pre bl post few : inputs w filename il (good ++ bad :: rest) ->
  Forall2 (readable Crystal (fs w)) good ds -> fs w bad = File content -> is_text content = true ->
  let lines := readlines content in
  CrystalModel.has CrystalOutputSpec.frequencies_title lines = true -> CrystalModel.has " * SUPERCELL OPTION" lines = false ->
  CrystalOutputSpec.cell_printed lines n A -> CrystalOutputSpec.energy_printed lines x ->
  nth_error (CrystalProps.header_lines lines) 0 = Some i -> skipn (i + 2) lines = pre ++ bl :: post -> CrystalProps.blank bl -> CrystalProps.listed pre few -> List.length few < 3 * n ->
  command Crystal filename outfile il ref answer w = None.
Proof.
  intros I0 F E T lines H1 H2 CL EN NE SK B LI FE. rewrite (stops_at Crystal w filename il good bad rest outfile ref answer ds ltac:(discriminate) I0 F), E. cbn [reading_of]. unfold crystal_reading. rewrite T. cbn [negb].
  fold lines.
  assert (X : CrystalModel.phonon_load lines = CrystalModel.Hangs); [|now rewrite X].
  destruct (CrystalOutputProofs.wf_cell_ok _ _ _ CL) as (c & C & Nc & _).
  unfold CrystalModel.phonon_load. change CrystalModel.frequency_calculation with CrystalOutputSpec.frequencies_title. rewrite H1. cbn [negb].
  unfold CrystalModel.geometry, CrystalModel.supercell_option. rewrite H2, C. cbn [negb CrystalModel.bind]. rewrite (CrystalOutputProofs.energy_ok _ _ EN). cbn [CrystalModel.bind].
  unfold CrystalModel.nphonon, CrystalModel.reported_cell. cbn [CrystalModel.supercell_on CrystalModel.unitcell CrystalModel.mesh CrystalModel.qpoints andb]. rewrite Nc.
  rewrite (CrystalProps.C57_file_hangs lines (n * 3) 1 0 i); [reflexivity|lia|lia|exact NE| |lia].
  apply CrystalProps.C57_hangs_iff. exists pre, bl, post, few. repeat split; try assumption. lia.
Qed.

(** ** From the outputs to the results of quantas ha *)
(** The file written by the one command is the input of the other: its results
    belong to the volumes, energies and frequencies the outputs print, within
    half a unit of the last digit written, and to the truncated weights. *)
Theorem C100_to_harmonic w filename il files outfile ref job ps r hplanck kboltzmann times total_time encode memory special_case u o silent d a :
  UnitsSpec.positive_constants K -> (0 < hplanck)%R -> (0 < kboltzmann)%R -> (forall text y, YamlSpec.yaml_of text = Some y -> yaml_load text = QhaReaderModel.Parsed y) ->
  inputs w filename il files -> a_set w files ps ref r -> QhaWriterProofs.plain job ->
  let f := outfile +++ ".yaml" in let results := outpath (ha_command (HaCommandModel.print_settings u)) f o in
  fs w f <> Dir -> QhaReaderProps.sum_to (p_points r) (fun i => IZR (Ztrunc (p_weight r i))) <> 0%R ->
  In (HaCommandModel.eunit_o u) ["Ha"; "eV"; "Ry"] /\ In (HaCommandModel.vunit_o u) ["A"; "bohr"] /\ In (HaCommandModel.funit_o u) ["cm-1"; "THz"; "Hz"] /\ In (HaCommandModel.tunit_o u) ["K"; "C"] ->
  snd (HaCommandModel.trange u) <> 0%R -> logpath results <> f -> fs w (logpath results) <> Dir -> results <> f ->
  fs w results = Absent \/ fs w results <> Dir /\ a = Ok true ->
  exists v v' h vols ens wt F, command Crystal filename outfile il ref (Ok job) w = Some (Ok tt, v) /\
    HaCommandModel.ha_main K hplanck kboltzmann yaml_load times total_time encode memory special_case u f o silent d a v = (Ok tt, v') /\
    fs v' results = File (encode h) /\ HaCommandProps.harmonic_file K hplanck kboltzmann u h (p_atoms r) (p_points r) vols ens wt F /\
    Forall2 (FormatProofs.rounded 8) (map p_volume ps) vols /\ Forall2 (FormatProofs.rounded_sig 12) (map p_energy ps) ens /\
    (forall i, i < p_points r -> wt i = IZR (Ztrunc (p_weight r i))) /\
    (forall i j k p, i < p_points r -> j < p_atoms r * 3 -> nth_error ps k = Some p -> FormatProofs.rounded 10 (p_frequency p i j) (F i j k)) /\
    HaCommandProps.logged u f o v' ["Job: " +++ strip job].
Proof.
  intros PK Hh Hk YL I0 S0 J f results D Sw Un St Lf Ld Rf Ra.
  destruct (set_written w filename il files outfile ref job ps r I0 S0 J D) as (ls & y & L & Y & _ & _ & C). destruct (set_member _ _ _ _ _ S0) as (Ir & Q).
  set (v := {| fs := update (fs w) (output_path outfile) (File (join_lines ls)); screen := screen w ++ session files ref (output_path outfile) ++ asked :: credits |}) in C.
  assert (Ff : fs v f = File (join_lines ls)) by (cbn [fs v]; unfold update, output_path, f; now rewrite String.eqb_refl).
  assert (Fo : forall p, p <> f -> fs v p = fs w p) by (intros p N; cbn [fs v]; unfold update, output_path; fold f; destruct (String.eqb_spec p f); [contradiction|reflexivity]).
  edestruct (HaCommandProps.C95_from_outputs K hplanck kboltzmann yaml_load times total_time encode memory special_case u f o silent d a v PK Hh Hk (map record ps) job ref (record r) (p_atoms r) ls YL)
    as (v' & h & vols & ens & F & A1 & A2 & A3 & A4 & A5 & A6 & A7).
  - now apply (set_item _ _ _ _ _ S0).
  - exact J.
  - reflexivity.
  - reflexivity.
  - apply (s_atoms _ _ _ _ _ S0).
  - exact Q.
  - cbn [record QhaWriterModel.qpoints QhaWriterModel.qcoords]. now rewrite map_length, seq_length.
  - cbn [record QhaWriterModel.qpoints QhaWriterModel.weights]. now rewrite map_length, seq_length.
  - now apply set_covers in S0.
  - assert (X : forall n w1 w2, (forall i, i < n -> w1 i = w2 i) -> QhaReaderProps.sum_to n w1 = QhaReaderProps.sum_to n w2).
    { clear. induction n as [|n IH]; intros w1 w2 H; [reflexivity|]. cbn [QhaReaderProps.sum_to]. rewrite (IH w1 w2) by (intros; apply H; lia). rewrite (H n) by lia. reflexivity. }
    cbn [record QhaWriterModel.qpoints QhaWriterModel.weights]. erewrite X; [exact Sw|]. intros i Hi. cbv beta. now rewrite seq_nth_in.
  - exact L.
  - constructor; [exact Un|exact Ff| |exact Lf]. fold results. rewrite Fo by exact Lf. exact Ld.
  - exact St.
  - unfold HaCommandProps.out_free. fold results. rewrite Fo by exact Rf. exact Ra.
  - exists v, v', h, vols, ens. eexists. exists F. split; [exact C|]. split; [exact A1|]. split; [exact A2|]. split; [exact A3|].
    rewrite map_map in A4, A5. split; [exact A4|]. split; [exact A5|]. split; [|split; [|exact A7]].
    + intros i Hi. cbn [record QhaWriterModel.weights]. now rewrite seq_nth_in.
    + intros i j k p Hi Hj Ek. destruct (s_alike _ _ _ _ _ S0 p (nth_error_In _ _ Ek)). rewrite <- (record_frequency p i j) by lia. apply A6; [exact Hi|exact Hj|]. now rewrite nth_error_map, Ek.
Qed.
End Command.

Print Assumptions C100_crystal.
Print Assumptions C100_announced.
Print Assumptions C100_negative_reference_refuted.
Print Assumptions C100_positions.
Print Assumptions C100_replaced_refuted.
Print Assumptions C100_invalid_reference.
Print Assumptions C100_reference_refuted.
Print Assumptions C100_only_output.
Print Assumptions C100_not_a_file.
Print Assumptions C100_qha_list.
Print Assumptions C100_missing_file.
Print Assumptions C100_no_frequencies.
Print Assumptions C100_binary_refuted.
Print Assumptions C100_directory_refuted.
Print Assumptions C100_endless_refuted.
Print Assumptions C100_to_harmonic.
