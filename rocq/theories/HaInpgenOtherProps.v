(** C100, continued: the phonopy and crystal-qha interfaces; a set of outputs. *)
From Coq Require Import Reals String Ascii List Bool Arith ZArith NArith Lia Lra.
From Flocq Require Import Core.
From Verif Require Import Py DecimalModel FormatModel SoecInterfaceModel CliModel HaInpgenModel HaInpgenProofs HaInpgenProps.
From Verif Require QhaReaderModel QhaWriterModel QhaWriterProofs QhaWriterProps QhaReaderProps CrystalModel CrystalProps CrystalCellProps CrystalQhaProps CrystalOutputSpec CrystalOutputProofs
  PhonopyModel PhonopyProps UnitsModel UnitsSpec UnitsProps YamlSpec FormatProofs HaCommandModel HaCommandProps.
Import ListNotations.
Open Scope string_scope.
Open Scope list_scope.
Open Scope nat_scope.

Lemma phonopy_same o : same_numbers (phonopy_set o) o.
Proof.
  constructor; try reflexivity. intros i j Hi Hj. cbn [phonopy_set expansion]. unfold dim_rows. destruct (QhaWriterModel.dim o) as ((a, b), c). reflexivity.
Qed.

Section Command.
Variable t : texts.
Variable is_text : string -> bool.
Variable yaml_load : string -> QhaReaderModel.parsed.
Variable xml_load : string -> PhonopyModel.xml.
Variable K : UnitsModel.constants.
Notation command := (ha_inpgen t is_text yaml_load xml_load K).

(** ** phonopy: the mesh, the displacements and the VASP output of every volume *)
Definition yaml_on (w : world) (f : string) : option QhaReaderModel.parsed := match fs w f with File c => Some (yaml_load c) | _ => None end.
Definition xml_on (w : world) (f : string) : PhonopyModel.xml := match fs w f with File c => xml_load c | _ => PhonopyModel.NoXml end.
Notation available := (fun w => PhonopyProps.available (yaml_on w) (xml_on w)).
Lemma available_readable w v : PhonopyProps.available (yaml_on w) (xml_on w) v ->
  exists p, PhonopyModel.phonopy_disk K (yaml_on w) (xml_on w) (PhonopyProps.file_of v) = QhaWriterModel.Phonons (PhonopyModel.used p) /\
    readable is_text yaml_load xml_load K Phonopy (fs w) (PhonopyProps.file_of v) (phonopy_set (PhonopyModel.used p)).
Proof.
  intros (C & E). destruct (PhonopyProps.C80_reads K (yaml_on w) (xml_on w) _ _ _ _ _ _ C E) as (p & L & _). exists p.
  destruct C as (PA & (y & Y & M) & (d & D & SC)). fold (PhonopyProps.file_of v) in L, Y. split.
  - unfold PhonopyModel.phonopy_disk. now rewrite Y, L.
  - unfold yaml_on in Y at 1. destruct (fs w (PhonopyProps.file_of v)) as [|content|] eqn:Ef; try discriminate. exists content. split; [exact Ef|].
    cbn [reading_of]. unfold phonopy_reading. fold (yaml_on w) (xml_on w).
    assert (X : existsb (fun p => match fs w p with Dir => true | _ => false end) [PhonopyModel.root_of (PhonopyProps.file_of v) +++ "_disp.yaml"; PhonopyModel.root_of (PhonopyProps.file_of v) +++ ".xml"] = false).
    { unfold PhonopyProps.file_of. rewrite (PhonopyProps.root_path _ _ _ PA). cbn [existsb]. rewrite <- !PhonopyProps.append_assoc3.
      unfold yaml_on in D. destruct (fs w (PhonopyProps.v_dir v +++ PhonopyProps.v_base v +++ "_disp.yaml")); try discriminate.
      destruct E as (b & tt0 & aa & E & _). unfold xml_on in E. destruct (fs w (PhonopyProps.v_dir v +++ PhonopyProps.v_base v +++ ".xml")); try discriminate. reflexivity. }
    cbv zeta. rewrite X. change (match PhonopyModel.load_phonopy K (yaml_on w) (xml_on w) (PhonopyProps.file_of v) with QhaReaderModel.Raises e => Threw e | QhaReaderModel.Ok (PhonopyModel.Error m) => Refused m
      | QhaReaderModel.Ok (PhonopyModel.Complete d) => Got (phonopy_set (PhonopyModel.used d)) end = Got (phonopy_set (PhonopyModel.used p))). now rewrite L.
Qed.
(** The file written holds for every volume what phonopy and VASP wrote, with
    frequencies in cm^-1; it is the only file changed. *)
Theorem C100_phonopy w filename content outfile k job vs r : fs w filename = File content -> is_text content = true ->
  map rstrip (readlines content) = map PhonopyProps.file_of vs -> Forall (available w) vs -> nth_error vs k = Some r -> QhaWriterProofs.plain job ->
  0 < PhonopyProps.m_natom (PhonopyProps.v_mesh r) -> 0 < PhonopyProps.m_nq (PhonopyProps.v_mesh r) ->
  Forall (fun v => PhonopyProps.m_natom (PhonopyProps.v_mesh v) = PhonopyProps.m_natom (PhonopyProps.v_mesh r) /\ PhonopyProps.m_nq (PhonopyProps.v_mesh v) = PhonopyProps.m_nq (PhonopyProps.v_mesh r)) vs ->
  fs w (outfile +++ ".yaml") <> Dir ->
  exists v text y, command Phonopy filename outfile true (Z.of_nat k) (Ok job) w = Some (Ok tt, v) /\
    fs v (outfile +++ ".yaml") = File text /\ (forall p, p <> outfile +++ ".yaml" -> fs v p = fs w p) /\
    YamlSpec.yaml_of text = Some y /\ QhaReaderModel.jobname y = QhaReaderModel.Ok (strip job) /\
    QhaWriterProps.read_back y (PhonopyProps.m_natom (PhonopyProps.v_mesh r)) (PhonopyProps.v_dim r) (PhonopyProps.m_nq (PhonopyProps.v_mesh r))
      (map (fun v => PhonopyProps.triple_product (PhonopyProps.m_lattice (PhonopyProps.v_mesh v))) vs) (map PhonopyProps.v_energy vs)
      (fun i => snd (fst (nth i (PhonopyProps.m_qs (PhonopyProps.v_mesh r)) PhonopyProps.no_q)))
      (fun i j n => nth n (map (fun v => PhonopyProps.THz v i j * 10 ^ 12 / (100 * UnitsModel.c_ms K))%R vs) 0%R) /\
    screen v = screen w ++ (Highlight, title t) :: done_lines (map PhonopyProps.file_of vs) 0 (Z.of_nat k) ++
      [(Plain, "Preparing the input file for Quantas: '" +++ (outfile +++ ".yaml") +++ "'"); (Question, nl +++ "Please, enter a short description for the input file: ");
       (Highlight, bib_header t); (Highlight, own_citation t); (Highlight, bib_footer t); (Highlight, finish t)].
Proof.
  intros Ef T Fi Av Kr J Na Nq Sh D.
  destruct (PhonopyProps.C80_generated K (yaml_on w) (xml_on w) (readlines content) vs k r job filename Fi Av Kr J Na Nq Sh) as (ls & y & W & Y & Jn & RB).
  assert (X : exists os, Forall2 (fun f d => PhonopyModel.phonopy_disk K (yaml_on w) (xml_on w) f = QhaWriterModel.Phonons d) (map PhonopyProps.file_of vs) os /\
     Forall2 (readable is_text yaml_load xml_load K Phonopy (fs w)) (map PhonopyProps.file_of vs) (map phonopy_set os)).
  { clear - Av. induction Av as [|v vs A _ (os & A1 & A2)]; [exists []; split; constructor|]. destruct (available_readable w v A) as (p & P1 & P2).
    exists (PhonopyModel.used p :: os). split; cbn [map]; now constructor. }
  destruct X as (os & X1 & X2). rewrite <- Fi in X1.
  destruct (QhaWriterProps.C60_history _ QhaWriterModel.Phonopy filename (readlines content) os (Z.of_nat k) job {| QhaWriterModel.phondata := []; QhaWriterModel.own := QhaWriterModel.Shared |} eq_refl X1) as (H & _).
  rewrite W in H. cbn [QhaWriterModel.phondata app] in H. destruct (_ <? _)%Z; [discriminate|]. unfold QhaWriterModel.of_lines in H.
  destruct (QhaWriterModel.multiple_lines os job (Z.of_nat k)) as [ls'|] eqn:ML; [|discriminate]. injection H as <-.
  assert (S0 : Forall2 same_numbers (map phonopy_set os) os) by (clear; induction os as [|o os IH]; cbn [map]; constructor; [apply phonopy_same|exact IH]).
  assert (I0 : inputs is_text w filename true (map PhonopyProps.file_of vs)) by (exists content; split; [exact Ef|]; split; [exact T|now symmetry]).
  eexists _, _, y. split; [apply (inpgen_writes t is_text yaml_load xml_load K Phonopy w filename true _ outfile (Z.of_nat k) job (map phonopy_set os) os ls ltac:(discriminate) I0 X2 S0 ML D)|].
  cbn [fs screen]. unfold update, output_path. split; [now rewrite String.eqb_refl|].
  split; [intros p N; destruct (String.eqb_spec p (outfile +++ ".yaml")); [contradiction|reflexivity]|]. split; [exact Y|]. split; [exact Jn|]. split; [exact RB|].
  unfold session, asked, credits. cbn [app]. rewrite <- app_assoc. reflexivity.
Qed.


(** ** crystal-qha: one output with all volumes *)
(** What the reader of a QHA output reports, as the record of the writer *)
Record reports (c : CrystalModel.qha_class) (o : QhaWriterModel.qha_output) : Prop := {
  r_atoms : CrystalModel.qha_natom c = CrystalModel.Ok (QhaWriterModel.o_natom o);
  r_modes : QhaWriterModel.o_nphonon o = Z.to_nat (QhaWriterModel.o_natom o * 3);
  r_dim : forall i j, i < 3 -> j < 3 -> CrystalModel.q_dim c i j = nth j (nth i (dim_rows (QhaWriterModel.o_dim o)) []) NaN;
  r_q : QhaWriterModel.o_qpoints o = Z.to_nat (CrystalModel.q_qpoints c);
  r_coords : CrystalModel.q_coords c = map triple (QhaWriterModel.o_qcoords o);
  r_mesh : QhaWriterModel.o_shrinkf o = (1, 1, 1)%R;
  r_weights : CrystalModel.q_weights c = map Num (QhaWriterModel.o_weights o);
  r_points : CrystalModel.q_points c = QhaWriterModel.points o;
  r_volume : CrystalModel.qha_volume c = CrystalModel.Ok (map Num (QhaWriterModel.o_volume o));
  r_energy : CrystalModel.qha_energy c = CrystalModel.Ok (map Num (QhaWriterModel.o_energy o));
  r_phonons : CrystalModel.q_phonons c = map (map (map Num)) (QhaWriterModel.o_phonons o) }.
Lemma some_fields_map n l : some_fields n (map Num l) = QhaReaderModel.bind (QhaWriterModel.take_fields n l) (fun l => QhaReaderModel.Ok (map Num l)).
Proof. unfold some_fields, QhaWriterModel.take_fields. rewrite map_length. destruct (List.length l <? n); [reflexivity|]. cbn [QhaReaderModel.bind]. now rewrite firstn_map. Qed.
Lemma one_agrees c o job : reports c o -> one_lines c job = QhaWriterModel.single_lines o job.
Proof.
  intros S0. unfold one_lines, QhaWriterModel.single_lines. rewrite (r_atoms _ _ S0). cbn [of_res QhaReaderModel.bind].
  assert (H : heading job (QhaWriterModel.o_natom o) (CrystalModel.q_dim c) (Z.to_nat (CrystalModel.q_qpoints c)) = QhaReaderModel.Ok (QhaWriterModel.single_header job o)).
  { unfold heading, QhaWriterModel.single_header. pose proof (r_dim _ _ S0) as X. rewrite <- (r_q _ _ S0).
    destruct (QhaWriterModel.o_dim o) as ((((a1, a2), a3), ((b1, b2), b3)), ((c1, c2), c3)). cbn [QhaWriterModel.each].
    unfold expansion_line. rewrite !X by lia. cbn [dim_rows triple nth HaInpgenModel.whole QhaReaderModel.bind app]. reflexivity. }
  rewrite H. cbn [QhaReaderModel.bind]. rewrite (r_volume _ _ S0), (r_energy _ _ S0), (r_points _ _ S0). cbn [of_res QhaReaderModel.bind]. rewrite !some_fields_map.
  destruct (QhaWriterModel.take_fields (QhaWriterModel.points o) (QhaWriterModel.o_volume o)) as [v|]; [|reflexivity]. cbn [QhaReaderModel.bind].
  destruct (QhaWriterModel.take_fields (QhaWriterModel.points o) (QhaWriterModel.o_energy o)) as [e|]; [|reflexivity]. cbn [QhaReaderModel.bind].
  rewrite <- (r_q _ _ S0), <- (r_modes _ _ S0).
  rewrite (each_ext (single_q c (QhaWriterModel.o_nphonon o)) (QhaWriterModel.single_q_lines o)).
  - destruct (QhaWriterModel.each (QhaWriterModel.single_q_lines o) _); [|reflexivity]. cbn [QhaReaderModel.bind]. unfold QhaWriterModel.volume_line, QhaWriterModel.energy_line.
    rewrite <- !listed_fields, !map_map. reflexivity.
  - intros i _. unfold single_q, q_block, QhaWriterModel.single_q_lines. rewrite (r_coords _ _ S0), key_map.
    destruct (QhaWriterModel.key (QhaWriterModel.o_qcoords o) i) as [q|]; [|reflexivity]. cbn [QhaReaderModel.bind]. rewrite (r_mesh _ _ S0). destruct q as ((a, b), d).
    cbn [triple q_line QhaReaderModel.bind CrystalModel.fdiv fop text_f]. rewrite (r_weights _ _ S0), key_map.
    destruct (QhaWriterModel.key (QhaWriterModel.o_weights o) i) as [w|]; [|reflexivity]. cbn [QhaReaderModel.bind HaInpgenModel.whole].
    erewrite (each_ext (single_mode c i)); [reflexivity|]. intros j _. unfold single_mode. rewrite (r_phonons _ _ S0), key_map.
    destruct (QhaWriterModel.key (QhaWriterModel.o_phonons o) i) as [b'|]; [|reflexivity]. cbn [QhaReaderModel.bind]. rewrite item_map.
    destruct (QhaWriterModel.item b' j) as [l|]; [|reflexivity]. cbn [QhaReaderModel.bind]. rewrite (r_points _ _ S0), some_fields_map.
    destruct (QhaWriterModel.take_fields (QhaWriterModel.points o) l) as [l'|]; [|reflexivity]. cbn [QhaReaderModel.bind].
    unfold mode_text, QhaWriterModel.frequency_line. rewrite map_map. cbn [text_f]. now rewrite listed_fields.
Qed.
(** A QHA output whose numbers are all numbers: the file holds them all. *)
Theorem C100_crystal_qha w filename content outfile ref job c o na : fs w filename = File content -> is_text content = true ->
  CrystalModel.qha_load (readlines content) CrystalModel.qha_new = (c, CrystalModel.QhaCompleted) -> reports c o -> QhaWriterProofs.plain job ->
  QhaWriterModel.o_natom o = Z.of_nat na -> 0 < na -> 0 < QhaWriterModel.o_qpoints o -> 0 < QhaWriterModel.points o ->
  List.length (QhaWriterModel.o_volume o) = QhaWriterModel.points o -> List.length (QhaWriterModel.o_energy o) = QhaWriterModel.points o ->
  QhaWriterModel.o_qpoints o <= List.length (QhaWriterModel.o_qcoords o) -> QhaWriterModel.o_qpoints o <= List.length (QhaWriterModel.o_weights o) ->
  (forall i, i < QhaWriterModel.o_qpoints o -> exists b, nth_error (QhaWriterModel.o_phonons o) i = Some b /\
     forall j, j < QhaWriterModel.o_nphonon o -> exists l, nth_error b j = Some l /\ List.length l = QhaWriterModel.points o) ->
  fs w (outfile +++ ".yaml") <> Dir ->
  exists v text y, command CrystalQha filename outfile false ref (Ok job) w = Some (Ok tt, v) /\
    fs v (outfile +++ ".yaml") = File text /\ (forall p, p <> outfile +++ ".yaml" -> fs v p = fs w p) /\ YamlSpec.yaml_of text = Some y /\
    QhaWriterProps.read_back y na (QhaWriterModel.o_dim o) (QhaWriterModel.o_qpoints o) (QhaWriterModel.o_volume o) (QhaWriterModel.o_energy o) (fun i => nth i (QhaWriterModel.o_weights o) 0%R)
      (fun i j k => nth k (nth j (nth i (QhaWriterModel.o_phonons o) []) []) 0%R) /\
    screen v = screen w ++ [(Highlight, title t); (Plain, "  - " +++ filename +++ " ..."); (Plain, " Done!");
      (Plain, "Preparing the input file for Quantas: '" +++ (outfile +++ ".yaml") +++ "'"); (Question, nl +++ "Please, enter a short description for the input file: ");
       (Highlight, bib_header t); (Highlight, own_citation t); (Highlight, bib_footer t); (Highlight, finish t)].
Proof.
  intros Ef T L S0 J Na P0 Q Np Lv Le Lq Lw H D.
  assert (Nm : QhaWriterModel.o_nphonon o = na * 3) by (rewrite (r_modes _ _ S0), Na; lia).
  destruct (QhaWriterProps.C60_single_roundtrip o job na J Na Nm P0 Q Np Lv Le Lq Lw H) as (ls & y & SL & Y & RB).
  rewrite (runs t is_text yaml_load xml_load K CrystalQha filename outfile false ref (Ok job) w content Ef).
  cbn [read read_files]. change (fs (showing w [opening t]) filename) with (fs w filename). rewrite Ef. unfold and_then at 1, lift, show.
  cbn [reading_of]. unfold crystal_qha_reading. rewrite T, L. cbn [negb]. unfold and_then, lift, show, ret. cbn [read_files].
  match goal with |- context [generate t CrystalQha _ _ _ _ ?v1] =>
    destruct (generates t CrystalQha (output_path outfile) ref (Ok job) (Single c) v1 eq_refl I) as [(e & G & C)|(j & ls' & A & B & C & G)] end.
  - exfalso. destruct C as [C|(j & C & [C'|(_ & C')])]; [discriminate| |].
    + injection C as <-. cbn [made] in C'. rewrite (one_agrees c o job S0), SL in C'. discriminate.
    + cbn [fs showing] in C'. now apply D.
  - injection A as <-. cbn [made] in B. rewrite (one_agrees c o job S0), SL in B. injection B as <-. rewrite G. eexists _, _, y. split; [reflexivity|].
    cbn [fs screen showing]. unfold update, output_path. split; [now rewrite String.eqb_refl|].
    split; [intros p N; destruct (String.eqb_spec p (outfile +++ ".yaml")); [contradiction|reflexivity]|]. split; [exact Y|]. split; [exact RB|].
    rewrite <- !app_assoc. reflexivity.
Qed.
End Command.

(** ** Texts: two outputs at the zone centre, and one of a supercell *)
Fixpoint text_of (l : list string) : string := match l with [] => EmptyString | x :: r => x +++ String newline (text_of r) end.
Definition table (f g : string) : list string :=
  ["    MODES         EIGV          FREQUENCIES     IRREP"; ""; "  1- 2  0 " +++ f +++ " 6 (E)"; "  3- 3  0 " +++ g +++ " 6 (A)"; ""].
Definition gamma_lines (a e f g : string) : list string :=
  [" GEOMETRY FOR WAVE FUNCTION - DIMENSIONALITY"; ""; ""; ""; ""; ""; ""; ""; " ATOMS IN THE UNIT CELL: 1"; ""; ""; "   1 T 14 SI 0.0 0.0 0.0"; "";
   " DIRECT LATTICE VECTORS CARTESIAN COMPONENTS (ANGSTROM)"; "  X Y Z"; "  " +++ a +++ " 0 0"; "  0 " +++ a +++ " 0"; "  0 0 " +++ a;
   "    CENTRAL POINT  " +++ e +++ "   1"; " EIGENVALUES (EIGV) OF THE MASS WEIGHTED HESSIAN MATRIX AND HARMONIC"] ++ table f g.
Definition cubic (a : R) : CrystalCellProps.rmat := fun i j => if i =? j then a else 0%R.
Definition modes_of (f g : R) : nat -> R := fun j => nth j [f; f; g] 0%R.

Ltac compute_text := vm_compute; reflexivity.
(** a number written as an integer *)
Ltac integer_literal := match goal with |- parse_float ?s = Some (Num ?x) => let v := eval vm_compute in (CrystalModel.parse_int s) in match v with Some ?z =>
  transitivity (Some (Num (if String.prefix "-" s then -1 * IZR (- z) * powerRZ 10 0 else 1 * IZR z * powerRZ 10 0)%R)); [compute_text|do 2 f_equal; cbn; lra] end end.
Ltac the_word := eexists; eexists; split; [compute_text|]; split; [compute_text|].
Ltac position := apply (proj1 (CrystalCellProps.start_line_first _ _ _)); compute_text.
Lemma three_cases (P : nat -> Prop) : P 0 -> P 1 -> P 2 -> forall i, i < 3 -> P i.
Proof. intros A B C [|[|[|i]]] H; try assumption; lia. Qed.
Ltac table_text f g := 
  let k := fresh "k_" in let i := fresh "i_" in
    eexists [_; _], _, _; split; [compute_text|]; split; [compute_text|]; split;
    [ eapply (CrystalProps.numbered_cons 1 _ 2 (Num (IZR f))); [do 5 eexists; split; [compute_text|]; split; [compute_text|]; split; [compute_text|integer_literal]|lia|];
      eapply (CrystalProps.numbered_cons _ _ 3 (Num (IZR g))); [do 5 eexists; split; [compute_text|]; split; [compute_text|]; split; [compute_text|integer_literal]|lia|constructor]
    | let l := fresh "l_" in let n1 := fresh "n1_" in let n2 := fresh "n2_" in let v := fresh "v_" in let m := fresh "m_" in let S0 := fresh "S0_" in let P1 := fresh "P1_" in let P2 := fresh "P2_" in let P3 := fresh "P3_" in let B := fresh "B_" in
      intros l n1 n2 v m [<-|[<-|[]]] (? & ? & ? & ? & ? & S0 & P1 & P2 & P3) B;
      [ vm_compute in S0; injection S0 as <- <- <- <- <-; assert (n1 = 1%Z) as -> by (vm_compute in P1; congruence); assert (n2 = 2%Z) as -> by (vm_compute in P2; congruence);
        let s := match type of P3 with parse_float ?s = _ => s end in
        assert (parse_float s = Some (Num (IZR f))) by integer_literal; assert (v = Num (IZR f)) as -> by congruence; assert (m = 1%Z \/ m = 2%Z) as [-> | ->] by lia; reflexivity
      | vm_compute in S0; injection S0 as <- <- <- <- <-; assert (n1 = 3%Z) as -> by (vm_compute in P1; congruence); assert (n2 = 3%Z) as -> by (vm_compute in P2; congruence);
        let s := match type of P3 with parse_float ?s = _ => s end in
        assert (parse_float s = Some (Num (IZR g))) by integer_literal; assert (v = Num (IZR g)) as -> by congruence; assert (m = 3%Z) as -> by lia; reflexivity ] ].
Ltac gamma_case f g := split;
  [ split; compute_text
  | exists 0, 1; split; [position|]; split; [|split; [position|]];
    [ split; [the_word; compute_text|]; let a := fresh "a_" in intros a ?; assert (a = 0) as -> by lia; split; [eexists; the_word; compute_text|]; apply three_cases; eexists; the_word; compute_text
    | apply three_cases; (eexists; split; [compute_text|]; split; [apply Nat.le_0_l|left; split; [compute_text|]; apply three_cases; the_word; integer_literal]) ]
  | unfold CrystalCellProps.rdet, cubic; cbn [Nat.eqb]; lra
  | exists 18; split; [position|]; the_word; integer_literal
  | lra
  | split; [vm_compute; lia|]; let k := fresh "k_" in let i := fresh "i_" in let E := fresh "E_" in intros k i ?; assert (k = 0) as -> by lia; intros E; assert (i = 20) as -> by (vm_compute in E; congruence); clear E; table_text f g ].
Lemma gamma_2 : CrystalOutputSpec.gamma_output (readlines (text_of (gamma_lines "2" "-10" "215" "210"))) 1 (cubic 2) (-10) (modes_of 215 210).
Proof. gamma_case 215%Z 210%Z. Qed.
Lemma gamma_3 : CrystalOutputSpec.gamma_output (readlines (text_of (gamma_lines "3" "-9" "200" "190"))) 1 (cubic 3) (-9) (modes_of 200 190).
Proof. gamma_case 200%Z 190%Z. Qed.
(** The supercell of C75, with a second q point at (1, 0, 0)/2 *)
Definition out_q : nat -> nat -> R := fun i j => match i, j with 1, 0 => 1 | _, _ => 0 end%R.
Definition out_m : nat -> R := fun j => match j with 0 => 2 | _ => 1 end%R.
Lemma dispersion_text : CrystalOutputSpec.dispersion_output (readlines (text_of (CrystalCellProps.out 2))) 1 2 CrystalCellProps.out_A CrystalCellProps.out_E (-10) out_q (fun _ => 1%R) out_m
  (fun _ => modes_of 215 210).
Proof.
  split.
  - repeat split; compute_text.
  - exists 2, 17, 1. split; [position|]. split; [|split; [position|]].
    + split; [the_word; compute_text|]. intros a Ha. assert (a = 0 \/ a = 1) as [-> | ->] by lia; (split; [eexists; the_word; compute_text|]; apply three_cases; eexists; the_word; compute_text).
    + apply three_cases; (eexists; split; [compute_text|]; split; [apply Nat.le_0_l|left; split; [compute_text|]; apply three_cases; the_word; integer_literal]).
  - unfold CrystalCellProps.rdet, CrystalCellProps.out_A. lra.
  - exists 1. split; [position|]. split; [the_word; compute_text|]. intros a Ha. assert (a = 0) as -> by lia. split; [eexists; the_word; compute_text|]. apply three_cases; eexists; the_word; compute_text.
  - exists 13. split; [position|]. apply three_cases; (eexists; split; [compute_text|]; split; [vm_compute; lia|left; split; [compute_text|]; apply three_cases; the_word; integer_literal]).
  - intros [|[|[|i]]] [|[|[|j]]] Hi Hj; try lia; first [exists 2%Z; reflexivity | exists 1%Z; reflexivity | exists 0%Z; reflexivity].
  - rewrite CrystalCellProps.out_det_E. lra.
  - exists 37, 40. split; [right; split; [compute_text|]; split; [position|]|].
    + exists 39. split; [|reflexivity]. split; [eexists; split; compute_text|]. intros k l Hk E.
      assert (X : forallb (fun l => negb (SoecInterfaceModel.contains "K       WEIGHT       COORD" l)) (skipn 40 (readlines (text_of (CrystalCellProps.out 2)))) = true) by compute_text.
      rewrite forallb_forall in X. assert (I0 : In l (skipn 40 (readlines (text_of (CrystalCellProps.out 2))))).
      { rewrite <- (firstn_skipn 40 (readlines _)) in E. rewrite nth_error_app2 in E by (rewrite firstn_length; lia). now apply nth_error_In in E. }
      specialize (X l I0). now destruct (SoecInterfaceModel.contains _ l).
    + split; [the_word; compute_text|]. split.
      * intros i Hi. assert (i = 0 \/ i = 1) as [-> | ->] by lia; (split; [the_word; integer_literal|]; apply three_cases; the_word; integer_literal).
      * apply three_cases; the_word; integer_literal.
  - lia.
  - exists 38. split; [position|]. the_word. integer_literal.
  - lra.
  - split; [vm_compute; lia|]. intros k i Hk E. assert (k = 0 /\ i = 44 \/ k = 1 /\ i = 49) as [(-> & ->)|(-> & ->)].
    { assert (k = 0 \/ k = 1) as [-> | ->] by lia; vm_compute in E; [left|right]; split; congruence. }
    + table_text 215%Z 210%Z.
    + table_text 215%Z 210%Z.
Qed.

(** ** A set of three outputs, the last of a supercell *)
Definition at_gamma (a x f g : R) : printed :=
  {| p_atoms := 1; p_points := 1; p_expansion := CrystalCellProps.id3; p_mesh := (fun _ => 1%R); p_coords := (fun _ _ => 0%R); p_weight := (fun _ => 1%R);
     p_volume := CrystalCellProps.rdet (cubic a); p_energy := x; p_frequency := (fun _ => modes_of f g) |}.
Definition at_mesh : printed :=
  {| p_atoms := 1; p_points := 2; p_expansion := CrystalCellProps.out_E; p_mesh := out_m; p_coords := out_q; p_weight := (fun _ => 1%R);
     p_volume := (CrystalCellProps.rdet CrystalCellProps.out_A / CrystalCellProps.rdet CrystalCellProps.out_E)%R; p_energy := (-10 / CrystalCellProps.rdet CrystalCellProps.out_E)%R;
     p_frequency := (fun _ => modes_of 215 210) |}.
Definition three_outputs : list printed := [at_gamma 2 (-10) 215 210; at_gamma 3 (-9) 200 190; at_mesh].
Definition disk : world :=
  {| fs := fun p => if String.eqb p "set.txt" then File (text_of ["small.out"; "large.out  "; "super.out"])
                    else if String.eqb p "small.out" then File (text_of (gamma_lines "2" "-10" "215" "210"))
                    else if String.eqb p "large.out" then File (text_of (gamma_lines "3" "-9" "200" "190"))
                    else if String.eqb p "super.out" then File (text_of (CrystalCellProps.out 2))
                    else if String.eqb p "folder" then Dir else Absent;
     screen := [] |}.
Lemma disk_set ref r : nth_error three_outputs (if (ref <? 0)%Z then Z.to_nat (3 + ref) else Z.to_nat ref) = Some r -> (-3 <= ref)%Z -> p_points r = 1 -> p_atoms r = 1 ->
  a_set (fun _ => true) disk ["small.out"; "large.out"; "super.out"] three_outputs ref r.
Proof.
  intros N L Q A. constructor; [|exact N|exact L|lia|].
  - repeat constructor; eexists; (split; [reflexivity|]; split; [reflexivity|]).
    + apply prints_gamma, gamma_2.
    + apply prints_gamma, gamma_3.
    + apply prints_dispersion, dispersion_text.
  - rewrite Q, A. intros p [<-|[<-|[<-|[]]]]; cbn; lia.
Qed.
Lemma disk_inputs : inputs (fun _ => true) disk "set.txt" true ["small.out"; "large.out"; "super.out"].
Proof. eexists. split; [reflexivity|]. split; reflexivity. Qed.
Lemma three_volumes : map p_volume three_outputs = [8; 27; 8]%R /\ map p_energy three_outputs = [-10; -9; -5]%R.
Proof.
  unfold three_outputs, at_gamma, at_mesh. cbn [map p_volume p_energy]. rewrite CrystalCellProps.out_det_E. unfold CrystalCellProps.rdet, cubic, CrystalCellProps.out_A. cbn [Nat.eqb].
  split; repeat (f_equal; try lra).
Qed.
(** The hypotheses of C100_crystal hold of these files; the energy of the
    supercell is that of one of its two unit cells. *)
Example C100_instance t yaml_load xml_load K : exists v text y,
  ha_inpgen t (fun _ => true) yaml_load xml_load K Crystal "set.txt" "mgo" true 1 (Ok "two volumes") disk = Some (Ok tt, v) /\
  fs v "mgo.yaml" = File text /\ fs v "set.txt" = fs disk "set.txt" /\ YamlSpec.yaml_of text = Some y /\ QhaReaderModel.jobname y = QhaReaderModel.Ok "two volumes" /\
  QhaWriterProps.read_back y 1 (rows CrystalCellProps.id3) 1 [8; 27; 8]%R [-10; -9; -5]%R (fun _ => 1%R) (fun i j k => nth k (map (fun p => p_frequency p i j) three_outputs) 0%R) /\
  In (Plain, " Done! (Reference)") (screen v).
Proof.
  destruct (C100_crystal t (fun _ => true) yaml_load xml_load K disk "set.txt" true _ "mgo" 1 "two volumes" three_outputs _ disk_inputs (disk_set 1 _ eq_refl ltac:(lia) eq_refl eq_refl))
    as (v & text & y & C & F & O & Y & J & RB & S0).
  - split; [eexists _, _; split; reflexivity|split; reflexivity].
  - change (Absent <> Dir). discriminate.
  - exists v, text, y. split; [exact C|]. split; [exact F|]. split; [now apply O|]. split; [exact Y|]. split; [exact J|].
    rewrite (proj1 three_volumes), (proj2 three_volumes) in RB. split; [exact RB|]. rewrite S0. cbn. tauto.
Qed.
(** The reference 3 of three files is one too many, but not refused; 4 is. *)
Example C100_reference_instance t yaml_load xml_load K : exists v,
  ha_inpgen t (fun _ => true) yaml_load xml_load K Crystal "set.txt" "mgo" true 3 (Ok "two volumes") disk = Some (Raises "IndexError", v) /\ fs v "mgo.yaml" = Absent.
Proof.
  destruct (outputs_readable (fun _ => true) yaml_load xml_load K disk _ _ (s_outputs _ _ _ _ _ _ (disk_set 1 _ eq_refl ltac:(lia) eq_refl eq_refl))) as (ds & F & _).
  rewrite (C100_reference_refuted t (fun _ => true) yaml_load xml_load K Crystal disk "set.txt" true _ "mgo" 3 "two volumes" ds ltac:(discriminate) disk_inputs F ltac:(now left)).
  eexists. split; reflexivity.
Qed.
Example C100_invalid_instance t yaml_load xml_load K : exists v,
  ha_inpgen t (fun _ => true) yaml_load xml_load K Crystal "set.txt" "mgo" true 4 (Raises "Abort") disk = Some (Ok tt, v) /\ fs v "mgo.yaml" = Absent /\
  last (screen v) (Plain, "") = (Error, "Invalid reference provided").
Proof.
  destruct (outputs_readable (fun _ => true) yaml_load xml_load K disk _ _ (s_outputs _ _ _ _ _ _ (disk_set 1 _ eq_refl ltac:(lia) eq_refl eq_refl))) as (ds & F & _).
  rewrite (C100_invalid_reference t (fun _ => true) yaml_load xml_load K Crystal disk "set.txt" true _ "mgo" 4 (Raises "Abort") ds ltac:(discriminate) disk_inputs F ltac:(cbn; lia)).
  eexists. split; [reflexivity|]. split; reflexivity.
Qed.
Example C100_folder_instance t yaml_load xml_load K : exists v,
  ha_inpgen t (fun _ => true) yaml_load xml_load K Crystal "folder" "mgo" true 0 (Ok "x") disk = Some (Ok tt, v) /\ last (screen v) (Plain, "") = (Error, "'folder' is not a file").
Proof. rewrite (C100_not_a_file t (fun _ => true) yaml_load xml_load K Crystal "folder" "mgo" true 0 (Ok "x") disk eq_refl). eexists. split; reflexivity. Qed.
(** The same set on to the harmonic results; h and k of 1. *)
Definition yaml_reader (text : string) : QhaReaderModel.parsed := match YamlSpec.yaml_of text with Some y => QhaReaderModel.Parsed y | None => QhaReaderModel.NotText end.
Example C100_harmonic_instance t xml_load times total_time encode memory special_case : exists v v' h vols ens wt F,
  ha_inpgen t (fun _ => true) yaml_reader xml_load UnitsProps.codata Crystal "set.txt" "mgo" true (-2) (Ok "two volumes") disk = Some (Ok tt, v) /\
  HaCommandModel.ha_main UnitsProps.codata 1 1 yaml_reader times total_time encode memory special_case HaCommandProps.sample_options "mgo.yaml" None true false (Ok false) v = (Ok tt, v') /\
  fs v' "mgo_HA.hdf5" = File (encode h) /\ HaCommandProps.harmonic_file UnitsProps.codata 1 1 HaCommandProps.sample_options h 1 1 vols ens wt F /\
  Forall2 (FormatProofs.rounded 8) [8; 27; 8]%R vols /\ Forall2 (FormatProofs.rounded_sig 12) [-10; -9; -5]%R ens /\ FormatProofs.rounded 10 190 (F 0 2 1).
Proof.
  assert (One : (0 < 1)%R) by lra.
  destruct (C100_to_harmonic t (fun _ => true) yaml_reader xml_load UnitsProps.codata disk "set.txt" true ["small.out"; "large.out"; "super.out"] "mgo" (-2) "two volumes" three_outputs (at_gamma 3 (-9) 200 190) 1 1 times total_time encode memory special_case
    HaCommandProps.sample_options None true false (Ok false) UnitsProps.codata_positive One One) as (v & v' & h & vols & ens & wt & F & A1 & A2 & A3 & A4 & A5 & A6 & _ & A8 & _).
  - intros text y E. unfold yaml_reader. now rewrite E.
  - exact disk_inputs.
  - apply (disk_set (-2) _ eq_refl); [lia|reflexivity|reflexivity].
  - split; [eexists _, _; split; reflexivity|split; reflexivity].
  - change (Absent <> Dir). discriminate.
  - cbn [p_points at_gamma QhaReaderProps.sum_to p_weight]. rewrite (Ztrunc_IZR 1). lra.
  - cbn. tauto.
  - cbn. lra.
  - intros X. vm_compute in X. discriminate X.
  - change (Absent <> Dir). discriminate.
  - intros X. vm_compute in X. discriminate X.
  - left. reflexivity.
  - exists v, v', h, vols, ens, wt, F. rewrite (proj1 three_volumes) in A5. rewrite (proj2 three_volumes) in A6. split; [exact A1|]. split; [exact A2|]. split; [exact A3|]. split; [exact A4|]. split; [exact A5|]. split; [exact A6|].
    apply (A8 0 2 1 (at_gamma 3 (-9) 200 190)); [exact Nat.lt_0_1|repeat constructor|reflexivity].
Qed.
(** An output whose table stops after the second of three modes *)
Definition short_lines : list string := firstn 23 (gamma_lines "2" "-10" "215" "210") ++ [""].
Definition short_disk : world := {| fs := fun p => if String.eqb p "short.out" then File (text_of short_lines) else Absent; screen := [] |}.
Example C100_endless_instance t yaml_load xml_load K : ha_inpgen t (fun _ => true) yaml_load xml_load K Crystal "short.out" "mgo" false 0 (Ok "short") short_disk = None.
Proof.
  eapply (C100_endless_refuted t (fun _ => true) yaml_load xml_load K short_disk "short.out" false [] "short.out" [] "mgo" 0 (Ok "short") [] (text_of short_lines) 1 (cubic 2) (-10) 20 [_] (String newline "") []).
  - eexists. split; reflexivity.
  - constructor.
  - reflexivity.
  - reflexivity.
  - compute_text.
  - compute_text.
  - exists 0, 1; split; [position|]; split; [|split; [position|]].
    + split; [the_word; compute_text|]. intros a ?. assert (a = 0) as -> by lia. split; [eexists; the_word; compute_text|]; apply three_cases; eexists; the_word; compute_text.
    + apply three_cases; (eexists; split; [compute_text|]; split; [apply Nat.le_0_l|left; split; [compute_text|]; apply three_cases; the_word; integer_literal]).
  - exists 18. split; [position|]. the_word. integer_literal.
  - compute_text.
  - compute_text.
  - compute_text.
  - eapply (CrystalProps.listed_some _ 1 2 (Num 215)); [do 5 eexists; split; [compute_text|]; split; [compute_text|]; split; [compute_text|integer_literal]|lia|constructor].
  - vm_compute. lia.
Qed.

Print Assumptions C100_phonopy.
Print Assumptions C100_crystal_qha.
