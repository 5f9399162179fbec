(** Model of /repo/quantas/interfaces/phonopy.py: the reader of phonopy outputs
    used by the input generator. Numbers are exact reals; yaml.safe_load and
    ElementTree are not modelled: the reader receives the parsed documents or
    their failure. Documents whose values have other types than those written
    by phonopy are outside the model (Raises "unmodelled"). *)
From Coq Require Import Reals String Ascii List Bool Arith ZArith.
From Flocq Require Import Core.
From Verif Require Import Py DecimalModel ChemModel UnitsModel QhaReaderModel QhaWriterModel.
Import ListNotations.
Open Scope string_scope.
Open Scope list_scope.
Open Scope nat_scope.

(** posixpath.splitext(p)[0]: str.rfind, then a search for a character other
    than a dot between the last slash and the last dot (phonopy.py:84, 93) *)
Fixpoint rfind (c : ascii) (s : string) : option nat :=
  match s with
  | EmptyString => None
  | String a r => match rfind c r with Some i => Some (S i) | None => if Ascii.eqb a c then Some 0 else None end
  end.
Fixpoint only_dots (s : string) : bool := match s with EmptyString => true | String a r => (Ascii.eqb a "." && only_dots r)%bool end.
Definition root_of (p : string) : string :=
  let sep := match rfind "/" p with Some i => S i | None => 0 end in
  match rfind "." p with
  | Some d => if (sep <=? d) && negb (only_dots (substring sep (d - sep) p)) then substring 0 d p else p
  | None => p
  end.

(** The files around the input (phonopy.py:84-101): parsed YAML, and the elements
    calculation/energy/i of the XML file as name attribute and text. *)
Inductive xml := NoXml | BadXml | Energies (l : list (option string * string)).
Section Disk.
Variable K : constants.
Variable yaml_file : string -> option parsed.
Variable xml_file : string -> xml.

(** ** Values: the numbers, counts and lists taken from the documents (phonopy.py:219-264)
    and conversion to arrays of three columns *)
Definition number (y : yaml) : outcome R :=
  match y with YInt z => Ok (IZR z) | YNum x => Ok x | _ => Raises "unmodelled" end.
Definition count (y : yaml) : outcome nat :=
  match y with YInt z => if (z <? 0)%Z then Raises "unmodelled" else Ok (Z.to_nat z) | _ => Raises "unmodelled" end.
Definition elements (y : yaml) : outcome (list yaml) := match y with YList l => Ok l | _ => Raises "unmodelled" end.
Definition triple (y : yaml) : outcome three_reals :=
  match y with
  | YList [a; b; c] => let? x := number a in let? y := number b in let? z := number c in Ok (x, y, z)
  | _ => Raises "unmodelled"
  end.
Definition matrix (y : yaml) : outcome (three_reals * three_reals * three_reals) :=
  match y with
  | YList [a; b; c] => let? x := triple a in let? y := triple b in let? z := triple c in Ok (x, y, z)
  | _ => Raises "unmodelled"
  end.
(** phonopy.py:223, 229, 238, 244: assignment to an integer array *)
Definition truncated (v : three_reals) : Z * Z * Z := let '(a, b, c) := v in (Ztrunc a, Ztrunc b, Ztrunc c).
(** phonopy.py:169-171 *)
Definition det (m : three_reals * three_reals * three_reals) : R :=
  let '((a, b, c), (d, e, f), (g, h, i)) := m in
  (a * (e * i - f * h) - b * (d * i - f * g) + c * (d * h - e * g))%R.

(** ** The parts: what phonopy.py:130-150 stores *)
Record cell := { numbers : list Z; positions : list (Z * Z * Z); lattice : three_reals * three_reals * three_reals }.
(** phonopy.py:226-229, 241-244 *)
Definition atom (l : list yaml) (i : nat) : outcome (Z * (Z * Z * Z)) :=
  let? p := item l i in
  let? s := get "symbol" p in
  let? z := match s with
            | YStr w => match symbol2number w with Some z => Ok z | None => Raises "KeyError" end
            | _ => Raises "unmodelled" end in
  let? p' := item l i in
  let? c := get "coordinates" p' in
  let? v := triple c in
  Ok (z, truncated v).
(** phonopy.py:233-246; the points are looked up only when there are atoms *)
Definition set_unit_cell (y : yaml) : outcome (nat * cell) :=
  let? n := get "natom" y in let? natom := count n in
  let? lat := get "lattice" y in
  let? atoms := (if natom =? 0 then Ok [] else let? p := get "points" y in let? l := elements p in each (atom l) (seq 0 natom)) in
  let? m := matrix lat in
  Ok (natom, {| numbers := map fst atoms; positions := map snd atoms; lattice := m |}).
(** phonopy.py:216-231 *)
Definition set_displacements (y : yaml) : outcome ((three_reals * three_reals * three_reals) * cell) :=
  let? d := get "supercell_matrix" y in let? dim := matrix d in
  let? s := get "supercell" y in let? p := get "points" s in let? l := elements p in
  let? lat := get "lattice" s in
  let? atoms := each (atom l) (seq 0 (List.length l)) in
  let? m := matrix lat in
  Ok (dim, {| numbers := map fst atoms; positions := map snd atoms; lattice := m |}).
(** phonopy.py:262-263 and 257-261 *)
Definition mode (bands : yaml) (j : nat) : outcome R :=
  let? l := elements bands in let? b := item l j in let? f := get "frequency" b in let? x := number f in
  match convert_frequency K x "THz" "cm^-1" with Some v => Ok v | None => Raises "NotImplementedError" end.
Definition q_point (nf : nat) (l : list yaml) (i : nat) : outcome (three_reals * R * list R) :=
  let? q := item l i in
  let? p := get "q-position" q in let? pos := triple p in
  let? w := get "weight" q in let? weight := number w in
  let? band := (if nf =? 0 then Ok [] else let? b := get "band" q in each (mode b) (seq 0 nf)) in
  Ok (pos, weight, band).
(** phonopy.py:248-265 *)
Definition set_phonons (y : yaml) : outcome (nat * list (three_reals * R * list R)) :=
  let? n := get "natom" y in let? natom := count n in
  let? q := get "nqpoint" y in let? nq := count q in
  let? qs := (if nq =? 0 then Ok [] else let? p := get "phonon" y in let? l := elements p in each (q_point (3 * natom) l) (seq 0 nq)) in
  Ok (nq, qs).
(** phonopy.py:93-99: every matching element overwrites the energy *)
Fixpoint energy_of (l : list (option string * string)) (e : R) : outcome R :=
  match l with
  | [] => Ok e
  | (None, _) :: _ => Raises "KeyError"
  | (Some n, t) :: r =>
      if String.eqb n "e_wo_entrp" then
        match parse_float (strip t) with Some (Num x) => energy_of r x | Some NaN => Raises "unmodelled" | None => Raises "ValueError" end
      else energy_of r e
  end.
(** phonopy.py:205-214: the name bound by "except ... as exception" is deleted at the end
    of the clause, so the return statement raises *)
Definition load_yaml (p : parsed) : outcome yaml :=
  match p with Parsed y => Ok y | YamlError _ => Raises "UnboundLocalError" | NotText => Raises "UnicodeDecodeError" end.

(** what is left in the reader: data, and error or completed (phonopy.py:85-89, 106-108, 120) *)
Record phonopy := { unitcell : cell; supercell : cell; used : output }.
Inductive loaded := Error (message : string) | Complete (d : phonopy).
Definition no_displacements : string := "Phonopy displacement file (phonopy_disp.yaml) not available!" +++ nl +++ "Will now exit" +++ nl.
(** phonopy.py:51-121, with the properties volume and shrinkf used by the generator *)
Definition load_phonopy (file : string) : outcome loaded :=
  match yaml_file (root_of file +++ "_disp.yaml") with
  | None => Ok (Error no_displacements)
  | Some disp =>
      let? energy := match xml_file (root_of file +++ ".xml") with NoXml => Ok 0%R | BadXml => Raises "ParseError" | Energies l => energy_of l 0%R end in
      match yaml_file file with
      | None => Ok (Error " File not found!")
      | Some main =>
          let? y := load_yaml main in
          let? u := set_unit_cell y in let (natom, unit) := u in
          let? d := load_yaml disp in
          let? sd := set_displacements d in let (dim, super) := sd in
          let? ph := set_phonons y in let (nq, qs) := ph in
          Ok (Complete {| unitcell := unit; supercell := super;
               used := {| natom := Z.of_nat natom; dim := dim; qpoints := nq; qcoords := map (fun q => fst (fst q)) qs; shrinkf := (1, 1, 1)%R;
                          weights := map (fun q => snd (fst q)) qs; nphonon := 3 * natom; volume := det (lattice unit); energy := energy;
                          phonons := map snd qs |} |})
      end
  end.
(** qha_writer.py:61-73 with interface 'phonopy' (the path exists, or the
    generator reports it) *)
Definition phonopy_disk (f : string) : file :=
  match yaml_file f with
  | None => Missing
  | Some _ => match load_phonopy f with Raises e => Unreadable e | Ok (Error e) => Incomplete e | Ok (Complete d) => Phonons (used d) end
  end.
End Disk.
