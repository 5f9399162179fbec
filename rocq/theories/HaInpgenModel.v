(** quantas inpgen ha FILE: /repo/quantas/harmonic/commands/cmd_inpgen.py:52-105
    with the generator /repo/quantas/IO/qha_writer.py, from the texts on disk to
    the file written. The CRYSTAL readers are those of CrystalModel, the phonopy
    reader is that of PhonopyModel over any YAML and XML parser. Files and
    terminal are those of CliModel; a message echoed without newline is a
    message of its own. Numbers are exact reals or NaN. One command is one
    process: the list kept in the class (qha_writer.py:34) is empty when it
    starts. *)
From Coq Require Import Reals String Ascii List Bool Arith ZArith NArith.
From Flocq Require Import Core.
From Verif Require Import Py DecimalModel FormatModel SoecInterfaceModel CliModel.
From Verif Require QhaReaderModel QhaWriterModel CrystalModel PhonopyModel UnitsModel.
Import ListNotations.
Open Scope string_scope.
Open Scope list_scope.
Open Scope nat_scope.

(** ** Python formatting of a number which may be NaN *)
Definition text_f (w k : nat) (v : fl) : string := match v with Num x => fmt_f w k x | NaN => pad_left w "nan" end.
Definition text_E (w k : nat) (v : fl) : string := match v with Num x => fmt_E w k x | NaN => pad_left w " NAN" end.
(** '%wd' and '%-wd': "cannot convert float NaN to integer" *)
Definition whole (v : fl) : QhaReaderModel.outcome Z :=
  match v with Num x => QhaReaderModel.Ok (Ztrunc x) | NaN => QhaReaderModel.Raises "ValueError" end.

(** What the writer uses of a phonon reader (dictionaries with keys 0, 1, ...
    are lists). *)
Record phonon_set := {
  atoms : Z; expansion : flmat; qnumber : nat; coords : list (list fl); mesh : list fl; qweights : list fl; modes : nat;
  cell_volume : fl; cell_energy : fl; bands : list (list fl) }.

(** field + separator ... the last one with ' ]' (qha_writer.py:126-132, 148-152) *)
Fixpoint listed (sep : string) (l : list string) : string :=
  match l with
  | [] => EmptyString
  | [x] => x +++ " ]"
  | x :: r => x +++ sep +++ listed sep r
  end.
(** qha_writer.py:115-122 *)
Definition expansion_line (m : flmat) (i : nat) : QhaReaderModel.outcome string :=
  QhaReaderModel.bind (whole (m i 0)) (fun a => QhaReaderModel.bind (whole (m i 1)) (fun b => QhaReaderModel.bind (whole (m i 2)) (fun c =>
  QhaReaderModel.Ok ("- [ " +++ fmt_d 6 a +++ ", " +++ fmt_d 6 b +++ ", " +++ fmt_d 6 c +++ " ]")))).
(** qha_writer.py:112-123 *)
Definition heading (jobname : string) (natom : Z) (m : flmat) (nq : nat) : QhaReaderModel.outcome (list string) :=
  QhaReaderModel.bind (QhaWriterModel.each (expansion_line m) [0; 1; 2]) (fun d =>
  QhaReaderModel.Ok (["job: " +++ jobname; "natom:   " +++ fmt_d_left 7 natom; "supercell:"] ++ d ++ ["qpoints: " +++ int_text (Z.of_nat nq)])).
(** :138-139; a zero shrinking factor (infinities and NaN in numpy) is not modelled *)
Definition q_line (q s : list fl) : QhaReaderModel.outcome string :=
  match q, s with
  | [a; b; c], [x; y; z] =>
      QhaReaderModel.Ok ("- q-position: [ " +++ text_f 12 7 (CrystalModel.fdiv a x) +++ ", " +++ text_f 12 7 (CrystalModel.fdiv b y) +++ ", " +++ text_f 12 7 (CrystalModel.fdiv c z) +++ " ]")
  | _, _ => QhaReaderModel.Raises "ValueError"
  end.
(** :142-153 *)
Definition mode_text (j : nat) (band : list fl) : list string :=
  [QhaWriterModel.number_line j; "    frequency: [ " +++ listed ", " (map (text_f 16 10) band)].
(** :137-154, with the lines of the modes *)
Definition q_block (q : QhaReaderModel.outcome (list fl)) (s : list fl) (w : QhaReaderModel.outcome fl) (m : QhaReaderModel.outcome (list (list string))) :
    QhaReaderModel.outcome (list string) :=
  QhaReaderModel.bind q (fun q => QhaReaderModel.bind (q_line q s) (fun ql =>
  QhaReaderModel.bind w (fun w => QhaReaderModel.bind (whole w) (fun w =>
  QhaReaderModel.bind m (fun m => QhaReaderModel.Ok ([ql; "  weight: " +++ fmt_d_left 5 w; "  band:"] ++ List.concat m ++ [""])))))).
Definition mode_of (all : list phonon_set) (i j : nat) : QhaReaderModel.outcome (list string) :=
  QhaReaderModel.bind (QhaWriterModel.each (fun d => QhaReaderModel.bind (QhaWriterModel.key (bands d) i) (fun b => QhaWriterModel.item b j)) all)
    (fun band => QhaReaderModel.Ok (mode_text j band)).
Definition q_of (all : list phonon_set) (r : phonon_set) (i : nat) : QhaReaderModel.outcome (list string) :=
  q_block (QhaWriterModel.key (coords r) i) (mesh r) (QhaWriterModel.key (qweights r) i) (QhaWriterModel.each (mode_of all i) (seq 0 (modes r))).
(** qha_writer.py:105-157 *)
Definition many_lines (all : list phonon_set) (jobname : string) (ref : Z) : QhaReaderModel.outcome (list string) :=
  QhaReaderModel.bind (QhaWriterModel.py_item all ref) (fun r =>
  QhaReaderModel.bind (heading jobname (atoms r) (expansion r) (qnumber r)) (fun h =>
  QhaReaderModel.bind (QhaWriterModel.each (q_of all r) (seq 0 (qnumber r))) (fun qs =>
  QhaReaderModel.Ok (h ++ ["volume: [ " +++ listed "," (map (fun d => text_f 16 8 (cell_volume d)) all);
                           "energy: [ " +++ listed "," (map (fun d => text_E 20 12 (cell_energy d)) all); "phonon:"] ++ List.concat qs)))).

(** ** The single output of a CRYSTAL QHA run: qha_writer.py:159-211 *)
(** the properties of the reader may raise when they are asked for *)
Definition of_res {A} (r : CrystalModel.res A) : QhaReaderModel.outcome A :=
  match r with CrystalModel.Ok a => QhaReaderModel.Ok a | CrystalModel.Raises e => QhaReaderModel.Raises e | CrystalModel.Hangs => QhaReaderModel.Raises "unreachable" end.
(** line.format( *values ) with n fields *)
Definition some_fields (n : nat) (l : list fl) : QhaReaderModel.outcome (list fl) :=
  if List.length l <? n then QhaReaderModel.Raises "IndexError" else QhaReaderModel.Ok (firstn n l).
Definition single_mode (c : CrystalModel.qha_class) (i j : nat) : QhaReaderModel.outcome (list string) :=
  QhaReaderModel.bind (QhaWriterModel.key (CrystalModel.q_phonons c) i) (fun b => QhaReaderModel.bind (QhaWriterModel.item b j) (fun band =>
  QhaReaderModel.bind (some_fields (CrystalModel.q_points c) band) (fun l => QhaReaderModel.Ok (mode_text j l)))).
Definition single_q (c : CrystalModel.qha_class) (nm i : nat) : QhaReaderModel.outcome (list string) :=
  q_block (QhaWriterModel.key (CrystalModel.q_coords c) i) [Num 1; Num 1; Num 1] (QhaWriterModel.key (CrystalModel.q_weights c) i)
    (QhaWriterModel.each (single_mode c i) (seq 0 nm)).
Definition one_lines (c : CrystalModel.qha_class) (jobname : string) : QhaReaderModel.outcome (list string) :=
  QhaReaderModel.bind (of_res (CrystalModel.qha_natom c)) (fun n =>
  QhaReaderModel.bind (heading jobname n (CrystalModel.q_dim c) (Z.to_nat (CrystalModel.q_qpoints c))) (fun h =>
  QhaReaderModel.bind (QhaReaderModel.bind (of_res (CrystalModel.qha_volume c)) (some_fields (CrystalModel.q_points c))) (fun v =>
  QhaReaderModel.bind (QhaReaderModel.bind (of_res (CrystalModel.qha_energy c)) (some_fields (CrystalModel.q_points c))) (fun e =>
  QhaReaderModel.bind (QhaWriterModel.each (single_q c (Z.to_nat (n * 3))) (seq 0 (Z.to_nat (CrystalModel.q_qpoints c)))) (fun qs =>
  QhaReaderModel.Ok (h ++ ["volume: [ " +++ listed "," (map (text_f 16 8) v); "energy: [ " +++ listed "," (map (text_E 20 12) e); "phonon:"] ++ List.concat qs)))))).

(** ** Reading one file: qha_writer.py:61-73. A reader may never end (C57). *)
Inductive reading := Endless | Threw (e : string) | Refused (error : string) | Got (d : phonon_set) | GotAll (c : CrystalModel.qha_class).
Inductive interface := Crystal | CrystalQha | Phonopy.
Section Inpgen.
Variable t : texts.
(** whether Python can decode the text of a file *)
Variable is_text : string -> bool.
Variable yaml_load : string -> QhaReaderModel.parsed.
Variable xml_load : string -> PhonopyModel.xml.
Variable K : UnitsModel.constants.
Definition nl : string := String newline "".

(** The properties of CrystalPhononReader the writer asks for: crystal.py:276-366, 402-482 *)
Definition crystal_set (d : CrystalModel.phonon_data) : phonon_set :=
  {| atoms := Z.of_nat (CrystalModel.reported_natom d); expansion := CrystalModel.dim d;
     qnumber := CrystalModel.qpoints (CrystalModel.mesh d); coords := CrystalModel.qcoords (CrystalModel.mesh d);
     mesh := CrystalModel.shrink (CrystalModel.mesh d); qweights := CrystalModel.qweights (CrystalModel.mesh d);
     modes := CrystalModel.nphonon d; cell_volume := CrystalModel.reported_volume d;
     cell_energy := match CrystalModel.reported_energy d with CrystalModel.Ok e => e | _ => NaN end; bands := CrystalModel.phonons d |}.
(** crystal.py:64-131: the messages of the reader *)
Definition crystal_reading (file content : string) : reading :=
  if negb (is_text content) then Threw "UnicodeDecodeError" else
  match CrystalModel.phonon_load (readlines content) with
  | CrystalModel.Hangs => Endless
  | CrystalModel.Raises e => Threw e
  | CrystalModel.Ok (_, CrystalModel.NotFrequencies) => Refused ("This does not appear to be a CRYSTAL14/17 output " +++ nl +++ "related to phonon calculations")
  | CrystalModel.Ok (_, CrystalModel.NoEnergy) => Refused ("No unit cell energy in " +++ file)
  | CrystalModel.Ok (_, CrystalModel.NoLattice) => Refused ("No unit cell lattice in " +++ file)
  | CrystalModel.Ok (_, CrystalModel.NoPhonons) => Refused ("No phonon data in " +++ file)
  | CrystalModel.Ok (Some d, CrystalModel.Completed) => Got (crystal_set d)
  | CrystalModel.Ok (None, CrystalModel.Completed) => Threw "unreachable"
  end.
(** crystal.py:812-858 *)
Definition crystal_qha_reading (content : string) : reading :=
  if negb (is_text content) then Threw "UnicodeDecodeError" else
  match CrystalModel.qha_load (readlines content) CrystalModel.qha_new with
  | (c, CrystalModel.QhaCompleted) => GotAll c
  | (_, CrystalModel.NotQha) => Refused ("This does not appear to be a CRYSTAL14/17 output " +++ nl +++ "related to QHA calculations")
  | (_, CrystalModel.NoVolumes) => Refused "This QHA file seems to not contain any volumeinformation"
  | (_, CrystalModel.FewVolumes) => Refused "Insufficient number of unit cell volumes explored"
  | (_, CrystalModel.Restarted) => Refused ("At present, restarted calculations are not supported." +++ nl +++ "Sorry for the inconvenience.")
  | (_, CrystalModel.QhaCrash e) => Threw e
  end.
(** phonopy.py:51-121; a directory in place of one of the three files is an
    exception before anything is read (simplification: which comes first) *)
Definition triple (v : QhaWriterModel.three_reals) : list fl := let '(a, b, c) := v in [Num a; Num b; Num c].
Definition phonopy_set (d : QhaWriterModel.output) : phonon_set :=
  {| atoms := QhaWriterModel.natom d; expansion := (fun i j => nth j (let '(a, b, c) := QhaWriterModel.dim d in nth i [triple a; triple b; triple c] []) NaN);
     qnumber := QhaWriterModel.qpoints d; coords := map triple (QhaWriterModel.qcoords d); mesh := triple (QhaWriterModel.shrinkf d);
     qweights := map Num (QhaWriterModel.weights d); modes := QhaWriterModel.nphonon d; cell_volume := Num (QhaWriterModel.volume d);
     cell_energy := Num (QhaWriterModel.energy d); bands := map (map Num) (QhaWriterModel.phonons d) |}.
Definition phonopy_reading (g : string -> node) (file : string) : reading :=
  let yaml_file f := match g f with File c => Some (yaml_load c) | _ => None end in
  let xml_file f := match g f with File c => xml_load c | _ => PhonopyModel.NoXml end in
  if existsb (fun p => match g p with Dir => true | _ => false end) [PhonopyModel.root_of file +++ "_disp.yaml"; PhonopyModel.root_of file +++ ".xml"]
  then Threw "IsADirectoryError"
  else match PhonopyModel.load_phonopy K yaml_file xml_file file with
       | QhaReaderModel.Raises e => Threw e
       | QhaReaderModel.Ok (PhonopyModel.Error m) => Refused m
       | QhaReaderModel.Ok (PhonopyModel.Complete d) => Got (phonopy_set (PhonopyModel.used d))
       end.
Definition reading_of (k : interface) (g : string -> node) (file content : string) : reading :=
  match k with
  | Crystal => crystal_reading file content
  | CrystalQha => crystal_qha_reading content
  | Phonopy => phonopy_reading g file
  end.
Definition is_qha (k : interface) : bool := match k with CrystalQha => true | _ => false end.

(** What has been collected: the list of the class, or the one QHA reader. *)
Inductive collection := Several (l : list phonon_set) | Single (c : CrystalModel.qha_class).
Definition add (d : phonon_set) (x : collection) : collection := match x with Several l => Several (l ++ [d]) | Single c => Single c end.
(** A run which may never end *)
Definition run_of (A : Type) : Type := world -> option (result A * world).
Definition and_then {A B} (m : run_of A) (k : A -> run_of B) : run_of B := fun w =>
  match m w with Some (Ok a, v) => k a v | Some (Raises e, v) => Some (Raises e, v) | None => None end.
Definition lift {A} (m : M A) : run_of A := fun w => Some (m w).
(** qha_writer.py:61-82: (True, None) is inl of the collection, (False, error) is inr *)
Fixpoint read_files (k : interface) (files : list string) (c : nat) (ref : Z) (x : collection) : run_of (collection + string) :=
  match files with
  | [] => lift (ret (inl x))
  | f :: rest => fun w =>
      match fs w f with
      | Absent => lift (ret (inr ("File " +++ f +++ " does not exists"))) w
      | n =>
          and_then (lift (show Plain ("  - " +++ f +++ " ...")))
            (fun _ => match (match n with File content => reading_of k (fs w) f content | _ => Threw "IsADirectoryError" end) with
                      | Endless => fun _ => None
                      | Threw e => lift (raise e)
                      | Refused e => lift (ret (inr e))
                      | Got d => and_then (lift (show Plain (if (Z.of_nat c =? ref)%Z then " Done! (Reference)" else " Done!")))
                                          (fun _ => read_files k rest (S c) ref (add d x))
                      | GotAll q => and_then (lift (show Plain " Done!")) (fun _ => read_files k rest (S c) ref (Single q))
                      end) w
      end
  end.
(** qha_writer.py:46-60, 84-91 *)
Definition read (k : interface) (filename content : string) (is_list : bool) (ref : Z) : run_of (collection + string) :=
  if is_list then
    if is_qha k then lift (ret (inr "Only one CRYSTAL output file for --crystal-qha interface"))
    else if is_text content then read_files k (map rstrip (readlines content)) 0 ref (Several [])
    else lift (raise "UnicodeDecodeError")
  else read_files k [filename] 0 ref (Several []).

Definition output_path (outfile : string) : string := outfile +++ ".yaml".
Definition question : string := nl +++ "Please, enter a short description for the input file: ".
Definition complain (msg : string) : M unit := echo_error (error_banner t) None false ;; echo_error msg None false.
(** qha_writer.py:93-103 with input(): the line typed, or the exception for the
    end of the input or an interruption; nothing is written before all lines
    are made *)
Definition write_lines (out : string) (make : string -> QhaReaderModel.outcome (list string)) (answer : result string) : M unit :=
  show Question question ;;
  match answer with
  | Raises e => raise e
  | Ok job => match make job with QhaReaderModel.Raises e => raise e | QhaReaderModel.Ok ls => write out (join_lines ls) end
  end.
Definition farewell : M unit :=
  echo_highlight (bib_header t) None false ;; echo_highlight (own_citation t) None false ;;
  echo_highlight (bib_footer t) None false ;; echo_highlight (finish t) None false.
(** cmd_inpgen.py:88-105 *)
Definition generate (k : interface) (out : string) (ref : Z) (answer : result string) (x : collection) : M unit :=
  echo ("Preparing the input file for Quantas: '" +++ out +++ "'") None false ;;
  match x with
  | Single c => write_lines out (one_lines c) answer ;; farewell
  | Several l =>
      if is_qha k then raise "AttributeError"
      else if (Z.of_nat (List.length l) <? ref)%Z then complain "Invalid reference provided"
      else write_lines out (fun job => many_lines l job ref) answer ;; farewell
  end.
(** cmd_inpgen.py:52-105; a path which does not exist is refused by click *)
Definition ha_inpgen (k : interface) (filename outfile : string) (is_list : bool) (ref : Z) (answer : result string) : run_of unit := fun w =>
  let out := output_path outfile in
  match fs w filename with
  | Absent => lift (raise "BadParameter") w
  | n =>
      and_then (lift (echo_highlight (title t) None false)) (fun _ =>
      match n with
      | File content => fun w1 =>
          match read k filename content is_list ref w1 with
          | None => None
          | Some (Raises e, v) =>
              if String.eqb e "KeyError" then lift (complain ("File '" +++ filename +++ "' does not appear as a valid input file")) v
              else if String.eqb e "UnicodeDecodeError" then lift (complain ("File '" +++ filename +++ "' is in binary format")) v
              else Some (Raises e, v)
          | Some (Ok (inr error), v) => lift (complain error) v
          | Some (Ok (inl x), v) => lift (generate k out ref answer x) v
          end
      | _ => lift (complain ("'" +++ filename +++ "' is not a file"))
      end) w
  end.
End Inpgen.
