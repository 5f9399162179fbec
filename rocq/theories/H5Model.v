(** The general reader of result files and the interactive exporter built on it.
    - /repo/quantas/IO/hdf5_reader.py (QuantasHDF5Reader)
    - /repo/quantas/IO/hdf5_export.py (QuantasHDF5Export, QHATableFile)
    - what the two phonon calculators store, with all attributes:
      /repo/quantas/qha/qha.py:124-142 and 1229-1298, /repo/quantas/harmonic/harmonic.py:89-97 and 296-336
    A file is its 'info' attribute and its named arrays of one or two dimensions,
    each with its text attributes. Texts are bytes (UTF-8). Numbers are exact reals. *)
From Coq Require Import Reals String Ascii List Bool Arith ZArith.
From Verif Require Import Py DecimalModel FormatModel FormatProofs ThermoModel TableModel QhaRunModel StoreModel SoecTableModel ReportModel.
From Verif Require CliModel.
Import ListNotations.
Open Scope string_scope.
Open Scope list_scope.
Open Scope nat_scope.

Record stored := { content : array; attributes : list (string * string) }.
Record result_file := { about : option string; named : list (string * stored) }.

(** * QuantasHDF5Reader *)
Inductive answer :=
| Whole (a : array)            (* f[key][()] *)
| Line (v : list R)            (* a row or a column *)
| Scalar (x : R)               (* an element of a vector *)
| Text (s : string)            (* an error message, or an attribute *)
| Yes                          (* True *)
| Exception (e : string).
Section Reader.
(** The exception of h5py for an index out of range: ValueError up to version 2,
    IndexError from version 3 on (setup.py asks for 2.10 or later). *)
Variable out_of_range : string.
Variable f : result_file.
Definition not_found (key : string) : string := "Dataset '" +++ key +++ "' not found".
(** hdf5_reader.py:81-86 *)
Definition has_dataset (key : string) : answer :=
  match find key (named f) with None => Text (not_found key) | Some _ => Yes end.
(** 49-50 *)
Definition has_data (key : string) : answer := has_dataset key.
(** 42-47 *)
Definition get_data (key : string) : answer :=
  match find key (named f) with None => has_dataset key | Some d => Whole (content d) end.
(** str of an integer *)
Definition not_available (i : Z) : string := "Index " +++ int_text i +++ " not available".
(** A negative index counts from the end (h5py's _translate_int). *)
Definition place (i : Z) (n : nat) : option nat :=
  let j := if (i <? 0)%Z then (Z.of_nat n + i)%Z else i in
  if ((0 <=? j) && (j <? Z.of_nat n))%Z then Some (Z.to_nat j) else None.
Definition refused (i : Z) (e : string) : answer := if String.eqb e "ValueError" then Text (not_available i) else Exception e.
(** 52-60. Two indices for a vector are a ValueError of h5py. *)
Definition get_data_column (key : string) (column : Z) : answer :=
  match find key (named f) with
  | None => has_dataset key
  | Some d => match content d with
              | Vec _ => refused column "ValueError"
              | Mat m => match place column (List.length (hd [] m)) with
                         | Some j => Line (map (fun r => nth j r 0%R) m)
                         | None => refused column out_of_range
                         end
              end
  end.
(** 62-70 *)
Definition get_data_row (key : string) (row : Z) : answer :=
  match find key (named f) with
  | None => has_dataset key
  | Some d => match content d with
              | Vec v => match place row (List.length v) with Some i => Scalar (nth i v 0%R) | None => refused row out_of_range end
              | Mat m => match place row (List.length m) with Some i => Line (nth i m []) | None => refused row out_of_range end
              end
  end.
(** 88-93: f[key] of a missing dataset is a KeyError *)
Definition has_attribute (key attribute : string) : answer :=
  match find key (named f) with
  | None => Exception "KeyError"
  | Some d => match find attribute (attributes d) with
              | None => Text ("Dataset '" +++ key +++ "' does not have '" +++ attribute +++ "' attribute")
              | Some _ => Yes
              end
  end.
(** Python's truth value of such an answer; texts here are never empty *)
Definition truthy (a : answer) : bool := match a with Text s => negb (String.eqb s "") | _ => true end.
(** 72-79: 'if not ...' *)
Definition get_attribute (key attribute : string) : answer :=
  if negb (truthy (has_dataset key)) then has_dataset key
  else match has_attribute key attribute with
       | Exception e => Exception e
       | a => if negb (truthy a) then a
              else match find key (named f) with
                   | None => Exception "KeyError"
                   | Some d => match find attribute (attributes d) with None => Exception "KeyError" | Some v => Text v end
                   end
       end.
(** 24-36: the text of [info]; names and attributes come in byte order *)
Definition attribute_text (kv : string * string) : string :=
  if String.eqb (fst kv) "unit" then "(" +++ snd kv +++ ")" else snd kv +++ " ".
Definition entry_text (kd : string * stored) : string :=
  pad_left 15 (fst kd) +++ ": " +++ concat_map attribute_text (by_name (attributes (snd kd))) +++ nl.
Definition read : string + string :=
  match about f with
  | None => inr "KeyError"
  | Some i => inl (i +++ nl +++ "Available data:" +++ nl +++ concat_map entry_text (by_name (named f)))
  end.
End Reader.

(** * The files of the calculators, with all attributes *)
Definition with_attributes (desc unit : string) (a : array) : stored := {| content := a; attributes := [("desc", desc); ("unit", unit)] |}.
(** qha.py:124-142 *)
Definition qha_description (prop : string) : string :=
  if String.eqb prop "Uzp" then "Zero-point energy"
  else if String.eqb prop "Uth" then "Thermal energy"
  else if String.eqb prop "Utot" then "Total (vibrational + static) internal energy"
  else if String.eqb prop "S" then "Entropy"
  else if String.eqb prop "Fvib" then "Vibrational Helmholtz free energy"
  else if String.eqb prop "F" then "Helmholtz free energy"
  else if String.eqb prop "Cv" then "Isochoric heat capacity"
  else if String.eqb prop "VT" then "Unit cell volume"
  else if String.eqb prop "Cp" then "Isobaric heat capacity"
  else if String.eqb prop "Cp-Cv" then "Correction for isobaric heat capacity"
  else if String.eqb prop "KT" then "Isothermal bulk modulus"
  else if String.eqb prop "KS" then "Adiabatic bulk modulus"
  else if String.eqb prop "Kp" then "First-derivative of bulk modulus"
  else if String.eqb prop "alphaV" then "Volumetric coefficient of thermal expansion"
  else if String.eqb prop "H" then "Enthalpy"
  else if String.eqb prop "G" then "Gibbs free energy"
  else "Grüneisen parameters".
(** Attributes of the reader's objects (qha_reader.py: class attributes of
    BasicReader, methods and properties): there is no [job]. *)
Definition reader_attributes : list string :=
  ["completed"; "error"; "_data"; "load"; "_check"; "_get_float"; "_get_int"; "_get_string"; "data"; "jobname"; "natoms"; "kpoints"; "qpoints";
   "nvol"; "volume"; "energy"; "frequencies"; "weights"; "total_q_points"].
(** qha.py:1247: self.input.job if hasattr(self.input, 'job') else 'Unknown' *)
Definition qha_job (jobname : string) : string := if mem "job" reader_attributes then jobname else "Unknown".
(** qha.py:1230-1251 *)
Definition qha_about (s : settings) (jobname : string) : string :=
  join_lines
   [""; "This file was created with Quantas."; ""; "Job: " +++ qha_job jobname; "";
    "It contains the results of the quasi-harmonic approximation (QHA)"; "calculations performed with the following settings:";
    "  - energy scale:      " +++ eunit s; "  - volume scale:      " +++ vunit s; "  - frequency scale:   " +++ funit s;
    "  - temperature scale: " +++ tunit s; "  - pressure scale:    " +++ punit s;
    "  - calculation of thermodynamics: " +++ (if String.eqb (qha_scheme s) "freq" then "frequency" else "thermodynamic") +++ " interpolation";
    "  - volume minimizazion:           " +++ (if String.eqb (minimization s) "poly" then "polynomial" else "EoS") +++ " fitting"; "";
    "Thermodynamics and mechanical properties were calculated as a function of"; "pressure and temperature."; ""].
(** qha.py:1272-1294 *)
Definition qha_result_file (s : settings) (jobname : string) (temperature pressure : list R) (r : results) : result_file :=
  {| about := Some (qha_about s jobname);
     named :=
       ("T", with_attributes "Temperature" (tunit s) (Vec temperature)) ::
       ("P", with_attributes "Pressure" (punit s) (Vec pressure)) ::
       map (fun pm => (fst pm, with_attributes (qha_description (fst pm)) (qha_unit s (fst pm))
                                 (array_of (List.length temperature) (List.length pressure) (snd pm)))) (qha_properties r) |}.
(** harmonic.py:89-97 *)
Definition ha_description (prop : string) : string :=
  if String.eqb prop "Uzp" then "Zero-point energy"
  else if String.eqb prop "Uth" then "Thermal internal energy"
  else if String.eqb prop "Utot" then "Total (vibrational + static) energy"
  else if String.eqb prop "S" then "Entropy"
  else if String.eqb prop "Fvib" then "Vibrational Helmholtz free energy"
  else if String.eqb prop "F" then "Helmholtz free energy"
  else "Isochoric heat capacity".
(** harmonic.py:297-312 *)
Definition ha_about (s : settings) (jobname : string) : string :=
  join_lines
   [""; "This file was created with Quantas."; ""; "Job: " +++ jobname; "";
    "It contains the results of the harmonic approximation (HA) calculations"; "performed with the following settings:";
    "  - energy scale: " +++ eunit s; "  - volume scale: " +++ vunit s; "  - frequency scale: " +++ funit s; "  - temperature scale: " +++ tunit s; "";
    "Thermodynamics properties were calculated as a function of volume and"; "temperature."; ""].
(** harmonic.py:315-334 *)
Definition ha_result_file (s : settings) (jobname : string) (x : input) (temperature : list R) (r : ha_results) : result_file :=
  let nt := List.length temperature in
  let kept k a := (k, with_attributes (ha_description k) (ha_unit s k) a) in
  {| about := Some (ha_about s jobname);
     named :=
       [("V", with_attributes "Unit cell volume" (vunit s) (Vec (map (volume x) (seq 0 (nvol x)))));
        ("T", with_attributes "Temperature" (tunit s) (Vec temperature));
        ("U0", with_attributes "Static (electronic) energies" (eunit s) (Vec (map (static_energy x) (seq 0 (nvol x)))));
        kept "Uzp" (array_of 1 (nvol x) (fun _ => ha_Uzp r));
        kept "Uth" (array_of nt (nvol x) (ha_Uth r)); kept "Utot" (array_of nt (nvol x) (ha_Utot r));
        kept "S" (array_of nt (nvol x) (ha_S r)); kept "Fvib" (array_of nt (nvol x) (ha_Fvib r));
        kept "F" (array_of nt (nvol x) (ha_F r)); kept "Cv" (array_of nt (nvol x) (ha_Cv r))] |}.

(** * The tables of the exporter *)
(** hdf5_export.py:249-262: number format and label are chosen from the
    description of the array *)
Definition style_of (name : string) : style :=
  if String.eqb name "Temperature" then Ttype
  else if contains "volume" (lower name) then Vtype
  else if (contains "bulk modulus" (lower name) || String.eqb name "Pressure")%bool then Ptype
  else Etype.
Definition label_of (name unit : string) : string :=
  if String.eqb name "Temperature" then "T (" +++ unit +++ ")"
  else if contains "volume" (lower name) then "Volume (" +++ unit +++ ")"
  else if (contains "bulk modulus" (lower name) || String.eqb name "Pressure")%bool then "Pressure (" +++ unit +++ ")"
  else name +++ " (" +++ unit +++ ")".
Definition kind_of (name : string) : option TableModel.kind :=
  Some {| desc := name; label := label_of name; numstyle := style_of name |}.
(** 264-294: line by line the method of qha/utils/table.py:158-200 (see
    [TableModel.write]) without its special line for an empty unit; the
    description is written as the title, an empty one as an empty line. *)
Definition table_text (x : list R) (xname xunit : string) (y : list R) (yname yunit : string) (z : array) (zname zunit : string) : written :=
  write kind_of false x xname xunit y yname yunit z zname zunit.

(** * QuantasHDF5Export *)
Inductive event :=
| Shows (s : string)                  (* print *)
| Asks (s : string)                   (* input *)
| Writes (file text : string).        (* a file opened for writing, and what it holds afterwards *)
Inductive ending := Returned | Stopped (e : string).
(** The attributes set by get_file_data (81-90), kept from an earlier file when
    neither mark is found; (HA) is looked for first, (QHA) overrides it. *)
Record session := { source : result_file; listing : string; outbase : string; axes : option (string * string) }.
Definition file_axes (text : string) (before : option (string * string)) : option (string * string) :=
  if contains "(QHA)" text then Some ("T", "P") else if contains "(HA)" text then Some ("T", "V") else before.
(** 64-75 *)
Inductive opened := Ready (s : session) | Refused (message : string) | Failed (e : string).
Definition read_input (before : option (string * string)) (filename : string) (f : result_file) : opened :=
  match read f with
  | inr e => Failed e
  | inl text =>
    if contains "This file was created with Quantas." text
    then Ready {| source := f; listing := text; outbase := CliModel.root filename; axes := file_axes text before |}
    else Refused "The selected file does not appear as a Quantas output"
  end.
(** 92-114: what happens after the file name was entered. The reader's answers are
    asked for in this order; axes are vectors. *)
Definition axis_of (f : result_file) (key : string) : (list R * string * string) + string :=
  match find key (named f) with
  | None => inr "KeyError"
  | Some d => match find "desc" (attributes d), find "unit" (attributes d) with
              | Some n, Some u => inl (axis (content d), n, u)
              | _, _ => inr "KeyError"
              end
  end.
Definition export_data (s : session) (var file : string) : list event * ending :=
  match axes s with
  | None => ([], Stopped "AttributeError")
  | Some (x1, x2) =>
    match axis_of (source s) x1, axis_of (source s) x2, find var (named (source s)), get_attribute (source s) var "desc", get_attribute (source s) var "unit" with
    | inl (x, xn, xu), inl (y, yn, yu), Some d, Text zn, Text zu =>
      match table_text x xn xu y yn yu (content d) zn zu with
      | (t, Done) => ([Writes file t; Shows "Results exported correctly!"], Returned)
      | (t, Raised e) => ([Writes file t], Stopped e)
      end
    | _, _, _, _, _ => ([], Stopped "KeyError")
    end
  end.
(** 28-62: the dialogue, on the lines typed; when they are used up input raises
    EOFError. *)
Definition default_file (s : session) (var : string) : string := outbase s +++ ("_" +++ var) +++ ".dat".
Definition menu : list event :=
  [Shows ""; Shows "Select quantity to export"; Shows "[type 'help' to see available results, or 'quit' to exit]"; Asks "Selection: "].
Definition more_question : event := Asks "Would you like to export other results? [y/N] ".
Inductive stage := Choosing | Naming (var : string) | Continuing.
Definition tell (l : list event) (k : list event * ending) : list event * ending := (l ++ fst k, snd k).
Fixpoint dialogue (s : session) (at_ : stage) (typed : list string) : list event * ending :=
  match typed with
  | [] => ([], Stopped "EOFError")
  | t :: typed =>
    match at_ with
    | Choosing =>
      if String.eqb (lower t) "help" then tell (Shows (listing s) :: menu) (dialogue s Choosing typed)
      else if String.eqb (lower t) "quit" then ([], Returned)
      else if negb (truthy (has_data (source s) t)) then
        tell (Shows ("Error: " +++ not_found t) :: menu) (dialogue s Choosing typed)
      else tell [Asks ("Select output file for the selected data: (" +++ default_file s t +++ ")")] (dialogue s (Naming t) typed)
    | Naming var =>
      let file := if String.eqb t "" then default_file s var else t in
      match export_data s var file with
      | (l, Returned) => tell (l ++ [Shows ""; more_question]) (dialogue s Continuing typed)
      | (l, Stopped e) => (l, Stopped e)
      end
    | Continuing =>
      if (String.eqb t "" || String.eqb (lower t) "n")%bool then ([], Returned)
      else if String.eqb (lower t) "y" then tell menu (dialogue s Choosing typed)
      else tell [more_question] (dialogue s Continuing typed)
    end
  end.
Definition run (s : session) (typed : list string) : list event * ending := tell menu (dialogue s Choosing typed).
