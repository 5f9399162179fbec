(** Model of quantas/IO/qha_writer.py and of the command
    quantas/harmonic/commands/cmd_inpgen.py. The readers of the electronic
    structure outputs are parameters (they are modelled in CrystalModel.v);
    their numbers are exact reals. *)
From Coq Require Import Reals String Ascii List Bool Arith ZArith NArith.
From Flocq Require Import Core.
From Verif Require Import Py DecimalModel QhaReaderModel FormatModel.
Import ListNotations.
Open Scope string_scope.
Open Scope list_scope.
Open Scope nat_scope.
Notation "a +++ b" := (String.append a b) (at level 60, right associativity).

Definition three_reals := (R * R * R)%type.
(** What the writer uses of a phonon reader: dim, qcoords/shrinkf, weights and
    phonons[q][mode]. Dictionaries indexed 0, 1, ... are lists here. *)
Record output := {
  natom : Z; dim : three_reals * three_reals * three_reals; qpoints : nat;
  qcoords : list three_reals; shrinkf : three_reals; weights : list R; nphonon : nat;
  volume : R; energy : R; phonons : list (list R) }.

Definition key {A} (l : list A) (i : nat) : outcome A := match nth_error l i with Some x => Ok x | None => Raises "KeyError" end.
Definition item {A} (l : list A) (i : nat) : outcome A := match nth_error l i with Some x => Ok x | None => Raises "IndexError" end.
(** Python indexing: negative indices count from the end *)
Definition py_item {A} (l : list A) (i : Z) : outcome A :=
  if (i <? 0)%Z then (if (Z.of_nat (List.length l) + i <? 0)%Z then Raises "IndexError" else item l (Z.to_nat (Z.of_nat (List.length l) + i)))
  else item l (Z.to_nat i).
Fixpoint each {A B} (f : A -> outcome B) (l : list A) : outcome (list B) :=
  match l with [] => Ok [] | x :: r => let? y := f x in let? ys := each f r in Ok (y :: ys) end.

(** for i in range(n): line += field + sep, the last one with ' ]' *)
Fixpoint fields (sep : string) (f : R -> string) (l : list R) : string :=
  match l with
  | [] => EmptyString
  | [x] => f x +++ " ]"
  | x :: r => f x +++ sep +++ fields sep f r
  end.
Definition volume_line (l : list R) := "volume: [ " +++ fields "," (fmt_f 16 8) l.
Definition energy_line (l : list R) := "energy: [ " +++ fields "," (fmt_E 20 12) l.
Definition frequency_line (l : list R) := "    frequency: [ " +++ fields ", " (fmt_f 16 10) l.
(** qha_writer.py:115-122 *)
Definition dim_line (v : three_reals) : string :=
  let '(a, b, c) := v in "- [ " +++ fmt_d 6 (Ztrunc a) +++ ", " +++ fmt_d 6 (Ztrunc b) +++ ", " +++ fmt_d 6 (Ztrunc c) +++ " ]".
(** :138-139 *)
Definition position_line (q s : three_reals) : string :=
  let '(a, b, c) := q in let '(x, y, z) := s in
  "- q-position: [ " +++ fmt_f 12 7 (a / x) +++ ", " +++ fmt_f 12 7 (b / y) +++ ", " +++ fmt_f 12 7 (c / z) +++ " ]".
Definition number_line (j : nat) : string := "  - # " +++ print_nat (N.of_nat (j + 1)).
(** :112-123 *)
Definition header (jobname : string) (r : output) : list string :=
  let '(d1, d2, d3) := dim r in
  ["job: " +++ jobname; "natom:   " +++ fmt_d_left 7 (natom r); "supercell:"; dim_line d1; dim_line d2; dim_line d3;
   "qpoints: " +++ int_text (Z.of_nat (qpoints r))].
(** :142-154: one mode, the values of all files *)
Definition mode_lines (all : list output) (i j : nat) : outcome (list string) :=
  let? band := each (fun d => let? b := key (phonons d) i in item b j) all in
  Ok [number_line j; frequency_line band].
(** :137-155: one q point of the reference *)
Definition q_lines (all : list output) (r : output) (i : nat) : outcome (list string) :=
  let? q := key (qcoords r) i in
  let? w := key (weights r) i in
  let? modes := each (mode_lines all i) (seq 0 (nphonon r)) in
  Ok ([position_line q (shrinkf r); "  weight: " +++ fmt_d_left 5 (Ztrunc w); "  band:"] ++ List.concat modes ++ [""]).
(** :105-154: the lines; nothing is written before all of them are made *)
Definition multiple_lines (all : list output) (jobname : string) (ref : Z) : outcome (list string) :=
  let? r := py_item all ref in
  let? qs := each (q_lines all r) (seq 0 (qpoints r)) in
  Ok (header jobname r ++ [volume_line (map volume all); energy_line (map energy all); "phonon:"] ++ List.concat qs).

(** What the writer uses of a CRYSTAL QHA reader *)
Record qha_output := {
  o_natom : Z; o_dim : three_reals * three_reals * three_reals; o_qpoints : nat; o_qcoords : list three_reals;
  o_shrinkf : three_reals; o_weights : list R; o_nphonon : nat; points : nat;
  o_volume : list R; o_energy : list R; o_phonons : list (list (list R)) }.
(** line.format( *values ) with n fields: missing values are an IndexError,
    extra ones are ignored *)
Definition take_fields (n : nat) (l : list R) : outcome (list R) :=
  if (List.length l <? n) then Raises "IndexError" else Ok (firstn n l).
(** :181-204 *)
Definition single_q_lines (d : qha_output) (i : nat) : outcome (list string) :=
  let? q := key (o_qcoords d) i in
  let? w := key (o_weights d) i in
  let? modes := each (fun j => let? b := key (o_phonons d) i in let? band := item b j in
                               let? l := take_fields (points d) band in Ok [number_line j; frequency_line l]) (seq 0 (o_nphonon d)) in
  Ok ([position_line q (o_shrinkf d); "  weight: " +++ fmt_d_left 5 (Ztrunc w); "  band:"] ++ List.concat modes ++ [""]).
Definition single_header (jobname : string) (d : qha_output) : list string :=
  let '(d1, d2, d3) := o_dim d in
  ["job: " +++ jobname; "natom:   " +++ fmt_d_left 7 (o_natom d); "supercell:"; dim_line d1; dim_line d2; dim_line d3;
   "qpoints: " +++ int_text (Z.of_nat (o_qpoints d))].
(** :159-204 *)
Definition single_lines (d : qha_output) (jobname : string) : outcome (list string) :=
  let? v := take_fields (points d) (o_volume d) in
  let? e := take_fields (points d) (o_energy d) in
  let? qs := each (single_q_lines d) (seq 0 (o_qpoints d)) in
  Ok (single_header jobname d ++ [volume_line v; energy_line e; "phonon:"] ++ List.concat qs).

(** The generator: phondata is the list in the class, shared by every generator
    of the process, until a crystal-qha file is read into the instance. *)
Inductive collected := Shared | Own (d : qha_output).
Inductive interface := Crystal | CrystalQha | Phonopy.
(** Reading one file: it may be missing, make the reader fail or raise, or give
    a result for a multi-file or a single-file interface. *)
Inductive file := Missing | Unreadable (exception : string) | Incomplete (error : string) | Phonons (d : output) | QhaFile (d : qha_output).
Record process := { phondata : list output; own : collected }.

Section Files.
Variable disk : string -> file.
Variable flag : interface.
Definition is_qha : bool := match flag with CrystalQha => true | _ => false end.
(** :59-82: the files in order. The messages echoed for each of them are kept
    as the flag "announced as reference". *)
Fixpoint read_files (files : list string) (c : nat) (ref : Z) (p : process) : process * list (string * bool) * outcome (bool * option string) :=
  match files with
  | [] => (p, [], Ok (true, None))
  | f :: rest =>
      match disk f with
      | Missing => (p, [], Ok (false, Some ("File " +++ f +++ " does not exists")))
      | Unreadable e => (p, [], Raises e)
      | Incomplete e => (p, [], Ok (false, Some e))
      | Phonons d =>
          let p' := {| phondata := phondata p ++ [d]; own := own p |} in
          let '(p2, m, o) := read_files rest (S c) ref p' in (p2, (f, (Z.of_nat c =? ref)%Z) :: m, o)
      | QhaFile d =>
          let p' := {| phondata := phondata p; own := Own d |} in
          let '(p2, m, o) := read_files rest (S c) ref p' in (p2, (f, false) :: m, o)
      end
  end.
(** :43-82; file_lines: the lines of the file when it is a list (84-91) *)
Definition read (filename : string) (list_lines : option (list string)) (ref : Z) (p : process) :=
  match list_lines with
  | Some ls => if is_qha then (p, [], Ok (false, Some "Only one CRYSTAL output file for --crystal-qha interface"))
               else read_files (map rstrip ls) 0 ref p
  | None => read_files [filename] 0 ref p
  end.
(** A new generator starts with the class attribute. *)
Definition create (p : process) : process := {| phondata := phondata p; own := Shared |}.

(** What a run of the command leaves behind: a message, a file, or an exception
    that reaches the user. *)
Inductive result := Message (text : option string) | Written (lines : list string) | Crash (exception : string).
Definition of_lines (o : outcome (list string)) : result := match o with Ok l => Written l | Raises e => Crash e end.
(** cmd_inpgen.py:56-105 (a file that is not a regular file is rejected before;
    the answer to the prompt is a parameter) *)
Definition inpgen (filename : string) (list_lines : option (list string)) (ref : Z) (jobname : string) (p : process) : process * list (string * bool) * result :=
  let '(p1, m, o) := read filename list_lines ref (create p) in
  (p1, m,
   match o with
   | Raises e =>
       if String.eqb e "KeyError" then Message (Some ("File '" +++ filename +++ "' does not appear as a valid input file"))
       else if String.eqb e "UnicodeDecodeError" then Message (Some ("File '" +++ filename +++ "' is in binary format"))
       else Crash e
   | Ok (false, e) => Message e
   | Ok (true, _) =>
       if is_qha then match own p1 with Own d => of_lines (single_lines d jobname) | Shared => Crash "AttributeError" end
       else if (Z.of_nat (List.length (phondata p1)) <? ref)%Z then Message (Some "Invalid reference provided")
       else of_lines (multiple_lines (phondata p1) jobname ref)
   end).
End Files.
