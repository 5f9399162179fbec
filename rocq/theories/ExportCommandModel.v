(** `quantas export ha FILE` and `quantas export qha FILE`: from the result file and
    the lines typed to the tables written.
    - /repo/quantas/harmonic/commands/cmd_export.py:35-65, /repo/quantas/qha/commands/cmd_export.py (same)
    - /repo/quantas/harmonic/utils/export.py:20-98, /repo/quantas/qha/utils/export.py
      (they differ in the name of the second variable)
    - /repo/quantas/harmonic/utils/table.py, /repo/quantas/qha/utils/table.py: [TableModel.write]
    Parameters: what h5py makes of the bytes of a file ([None]: it raises OSError),
    and click's complaint about a wrong choice. A file holds arrays only (no
    groups); both variables are vectors; f.keys() comes in byte order. The
    dictionaries of the class are empty when a process starts. Each line typed
    answers the last question; when there are no more, click raises Abort. *)
From Coq Require Import Reals String Ascii List Bool Arith.
From Verif Require Import Py DecimalModel FormatModel FormatProofs TableModel StoreModel SoecTableModel H5Model.
From Verif Require CliModel CitationsModel EosFitModel.
Import ListNotations.
Open Scope string_scope.
Open Scope list_scope.
Open Scope nat_scope.
Import CliModel(M).

(** What the two versions do not share: the second variable, the types, and a
    line for an empty unit. *)
Record flavour := { second : string; types_of : string -> option TableModel.kind; adimensional : bool }.
Definition ha_flavour : flavour := {| second := "V"; types_of := ha_types; adimensional := false |}.
Definition qha_flavour : flavour := {| second := "P"; types_of := qha_types; adimensional := true |}.

Section Command.
Variable decode : string -> option result_file.
Variable complaint : string -> list string -> string.
Variable k : flavour.

(** ** load, export.py:34-64 *)
(** f[key][:] and f[key].attrs['unit']; a missing one is a KeyError *)
Definition array_unit (h : result_file) (key : string) : option dataset :=
  match find key (named h) with
  | None => None
  | Some d => match find "unit" (attributes d) with None => None | Some u => Some {| values := content d; unit_of := u |} end
  end.
Record loaded := { l_info : string; l_x : dataset; l_y : dataset; l_keys : list string; l_data : string -> option dataset }.
Inductive loading := Loaded (l : loaded) | Refused (message : string) | Broken (e : string).
Definition other_keys (h : result_file) : list string :=
  filter (fun key => negb (String.eqb key "T" || String.eqb key (second k))) (map fst (by_name (named h))).
Definition load (h : result_file) : loading :=
  match about h with
  | None => Refused "This does not appear to be a Quantas output file"
  | Some i =>
    match array_unit h "T", array_unit h (second k) with
    | Some x, Some y =>
      if forallb (fun key => match array_unit h key with Some _ => true | None => false end) (other_keys h)
      then Loaded {| l_info := i; l_x := x; l_y := y; l_keys := other_keys h; l_data := array_unit h |}
      else Broken "KeyError"
    | _, _ => Refused "This does not appear to be a Quantas HA output file"
    end
  end.

(** ** run, export.py:66-98 *)
Section Run.
Variable l : loaded.
Variable basename : string.
(** tabled_data.write(outfile, ...): the file is opened first; what is written
    before an exception stays. *)
Definition table_of (selection : string) : written :=
  match l_data l selection with
  | None => ("", Raised "KeyError")
  | Some z => TableModel.write (types_of k) (adimensional k) (axis (values (l_x l))) "T" (unit_of (l_x l))
                (axis (values (l_y l))) (second k) (unit_of (l_y l)) (values z) selection (unit_of z)
  end.
Definition echo (msg : string) : M unit := CliModel.echo msg None false.
Definition save (selection outfile : string) : M unit :=
  CliModel.bind (CliModel.write outfile (fst (table_of selection))) (fun _ =>
  match snd (table_of selection) with
  | Done => echo ("Data successfully exported to '" +++ outfile +++ "'")
  | Raised e => CliModel.raise e
  end).
Definition choice_question : string := "Select data to export".
Definition overwrite_question (file : string) : string := "File '" +++ file +++ "' exists. Overwrite it?".
Definition name_question : string := "Please, enter a file name".
Definition more_question : string := "Would you like to export other data?".
Definition ask (question : string) : M unit := CliModel.show CliModel.Question question.
(** The question last asked. *)
Inductive stage := Choosing | Overwriting (selection : string) | Naming (selection : string) | Continuing.
(** click.prompt asks again after an empty line, and after a line which is not one
    of the choices; click.confirm (default: no) after anything but y/yes/n/no. *)
Fixpoint dialogue (at_ : stage) (typed : list string) : M unit :=
  match typed with
  | [] => CliModel.raise "Abort"
  | t :: typed =>
    match at_ with
    | Choosing =>
      if String.eqb t "" then CliModel.bind (ask choice_question) (fun _ => dialogue Choosing typed)
      else if mem t (l_keys l) then
        CliModel.bind (CliModel.look (default_name basename t)) (fun n =>
        match n with
        | CliModel.Absent =>
          CliModel.bind (save t (default_name basename t)) (fun _ => CliModel.bind (ask more_question) (fun _ => dialogue Continuing typed))
        | _ => CliModel.bind (ask (overwrite_question (default_name basename t))) (fun _ => dialogue (Overwriting t) typed)
        end)
      else CliModel.bind (echo (complaint t (l_keys l))) (fun _ => CliModel.bind (ask choice_question) (fun _ => dialogue Choosing typed))
    | Overwriting sel =>
      match EosFitModel.confirm_answer false t with
      | Some true =>
        CliModel.bind (save sel (default_name basename sel)) (fun _ => CliModel.bind (ask more_question) (fun _ => dialogue Continuing typed))
      | Some false => CliModel.bind (ask name_question) (fun _ => dialogue (Naming sel) typed)
      | None =>
        CliModel.bind (echo "Error: invalid input") (fun _ =>
        CliModel.bind (ask (overwrite_question (default_name basename sel))) (fun _ => dialogue (Overwriting sel) typed))
      end
    | Naming sel =>
      if String.eqb t "" then CliModel.bind (ask name_question) (fun _ => dialogue (Naming sel) typed)
      else CliModel.bind (save sel t) (fun _ => CliModel.bind (ask more_question) (fun _ => dialogue Continuing typed))
    | Continuing =>
      match EosFitModel.confirm_answer false t with
      | Some true => CliModel.bind (echo "") (fun _ => CliModel.bind (ask choice_question) (fun _ => dialogue Choosing typed))
      | Some false => CliModel.ret tt
      | None => CliModel.bind (echo "Error: invalid input") (fun _ => CliModel.bind (ask more_question) (fun _ => dialogue Continuing typed))
      end
    end
  end.
Definition run (typed : list string) : M unit :=
  CliModel.bind (echo (l_info l)) (fun _ => CliModel.bind (echo "") (fun _ => CliModel.bind (ask choice_question) (fun _ => dialogue Choosing typed))).
End Run.

(** ** The command, cmd_export.py:35-65 *)
Definition highlight (msg : string) : M unit := CliModel.echo_highlight msg None false.
Definition failure (msg : string) : M unit :=
  CliModel.bind (CliModel.echo_error CitationsModel.quantas_error None false) (fun _ => CliModel.echo_error msg None false).
Definition body (filename : string) (typed : list string) : M unit :=
  CliModel.bind (highlight CitationsModel.quantas_title) (fun _ =>
  CliModel.bind (CliModel.look filename) (fun n =>
  match n with
  | CliModel.File bytes =>
    match decode bytes with
    | None => CliModel.raise "OSError"
    | Some h =>
      match load h with
      | Broken e => CliModel.raise e
      | Refused message => failure message
      | Loaded l =>
        CliModel.bind (run l (CliModel.root filename) typed) (fun _ =>
        CliModel.bind (highlight CitationsModel.biblio_header) (fun _ =>
        CliModel.bind (highlight CitationsModel.quantas_citation) (fun _ =>
        CliModel.bind (highlight CitationsModel.biblio_footer) (fun _ => highlight CitationsModel.quantas_finish))))
      end
    end
  | _ => failure ("'" +++ filename +++ "' is not a file")
  end)).
(** click.Path(exists=True) *)
Definition export_main (filename : string) (typed : list string) : M unit :=
  CliModel.bind (CliModel.look filename) (fun n => match n with CliModel.Absent => CliModel.raise "UsageError" | _ => body filename typed end).
End Command.
