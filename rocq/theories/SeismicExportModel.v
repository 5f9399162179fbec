(** `quantas export seismic FILE`: from the result file and the lines typed to the
    tables written.
    - /repo/quantas/seismic/commands/cmd_export.py:35-64
    - /repo/quantas/seismic/utils/export.py:24-106; load, the header and the lines of a
      table are in [SeismicTableModel]
    Parameters: what h5py makes of the bytes of a file ([None]: it raises OSError),
    and click's complaint about a wrong choice. The dictionary of the class is empty when
    a process starts. Each line typed answers the last question; when there are no more,
    click raises Abort. *)
From Coq Require Import Reals String Ascii List Bool Arith.
From Verif Require CliModel CitationsModel EosFitModel SeismicTableModel.
From Verif Require Import Py DecimalModel FormatModel FormatProofs TableModel StoreModel SoecTableModel.
Import ListNotations.
Open Scope string_scope.
Open Scope list_scope.
Open Scope nat_scope.
Import CliModel(M).

Section Command.
Variable decode : string -> option h5.
Variable complaint : string -> list string -> string.

(** ** run, export.py:61-106 *)
Section Run.
Variable data : list (string * dataset).
Variable choices : list string.
Variable basename : string.
Variable about : string.
Definition echo (msg : string) : M unit := CliModel.echo msg None false.
(** 72-75: the local variable data is set by the arrays whose name has the selection
    in it; without such an array it keeps the value of the table before. *)
Definition chosen (selection : string) (kept : option dataset) : option dataset :=
  match SeismicTableModel.last_matching selection data with Some d => Some d | None => kept end.
(** 83-103, after the questions about the file: the header, the shape of the array, and
    then the file is opened; what is written before an exception stays. *)
Definition save (local : option dataset) (selection outfile : string) : M unit :=
  match SeismicTableModel.seismic_header about selection with
  | None => CliModel.raise "IndexError"
  | Some header =>
    match local with
    | None => CliModel.raise "UnboundLocalError"
    | Some d =>
      match values d with
      | Vec _ => CliModel.raise "ValueError"
      | Mat m =>
        let text := put (header +++ nl +++ nl) (SeismicTableModel.seismic_rows m) in
        CliModel.bind (CliModel.write outfile (fst text)) (fun _ =>
        match snd text with
        | Done => echo ("Data successfully exported to '" +++ outfile +++ "'")
        | Raised e => CliModel.raise e
        end)
      end
    end
  end.
Definition choice_question : string := "Select data to export".
Definition overwrite_question (file : string) : string := "File '" +++ file +++ "' exists. Overwrite it?".
Definition name_question : string := "Please, enter a file name".
Definition more_question : string := "Would you like to export other data?".
Definition ask (question : string) : M unit := CliModel.show CliModel.Question question.
(** The question last asked, with the local variable data. *)
Inductive stage := Choosing (kept : option dataset) | Overwriting (local : option dataset) (selection : string)
  | Naming (local : option dataset) (selection : string) | Continuing (local : option dataset).
(** 65-105. click.prompt asks again after an empty line, and after a line which is not
    one of the choices; click.confirm (default: no) after anything but y/yes/n/no. *)
Fixpoint dialogue (at_ : stage) (typed : list string) : M unit :=
  match typed with
  | [] => CliModel.raise "Abort"
  | t :: typed =>
    match at_ with
    | Choosing kept =>
      if String.eqb t "" then CliModel.bind (ask choice_question) (fun _ => dialogue (Choosing kept) typed)
      else if mem t choices then
        CliModel.bind (CliModel.look (default_name basename t)) (fun n =>
        match n with
        | CliModel.Absent =>
          CliModel.bind (save (chosen t kept) t (default_name basename t)) (fun _ =>
          CliModel.bind (ask more_question) (fun _ => dialogue (Continuing (chosen t kept)) typed))
        | _ => CliModel.bind (ask (overwrite_question (default_name basename t))) (fun _ => dialogue (Overwriting (chosen t kept) t) typed)
        end)
      else CliModel.bind (echo (complaint t choices)) (fun _ => CliModel.bind (ask choice_question) (fun _ => dialogue (Choosing kept) typed))
    | Overwriting local sel =>
      match EosFitModel.confirm_answer false t with
      | Some true =>
        CliModel.bind (save local sel (default_name basename sel)) (fun _ => CliModel.bind (ask more_question) (fun _ => dialogue (Continuing local) typed))
      | Some false => CliModel.bind (ask name_question) (fun _ => dialogue (Naming local sel) typed)
      | None =>
        CliModel.bind (echo "Error: invalid input") (fun _ =>
        CliModel.bind (ask (overwrite_question (default_name basename sel))) (fun _ => dialogue (Overwriting local sel) typed))
      end
    | Naming local sel =>
      if String.eqb t "" then CliModel.bind (ask name_question) (fun _ => dialogue (Naming local sel) typed)
      else CliModel.bind (save local sel t) (fun _ => CliModel.bind (ask more_question) (fun _ => dialogue (Continuing local) typed))
    | Continuing local =>
      match EosFitModel.confirm_answer false t with
      | Some true => CliModel.bind (echo "") (fun _ => CliModel.bind (ask choice_question) (fun _ => dialogue (Choosing local) typed))
      | Some false => CliModel.ret tt
      | None => CliModel.bind (echo "Error: invalid input") (fun _ => CliModel.bind (ask more_question) (fun _ => dialogue (Continuing local) typed))
      end
    end
  end.
(** 61-69 *)
Definition run (typed : list string) : M unit :=
  CliModel.bind (echo about) (fun _ => CliModel.bind (echo "") (fun _ => CliModel.bind (ask choice_question) (fun _ => dialogue (Choosing None) typed))).
End Run.

(** ** The command, cmd_export.py:37-64 *)
Definition highlight (msg : string) : M unit := CliModel.echo_highlight msg None false.
Definition failure (msg : string) : M unit :=
  CliModel.bind (CliModel.echo_error CitationsModel.quantas_error None false) (fun _ => CliModel.echo_error msg None false).
Definition body (filename : string) (typed : list string) : M unit :=
  CliModel.bind (highlight CitationsModel.quantas_title) (fun _ =>
  CliModel.bind (CliModel.look filename) (fun n =>
  match n with
  | CliModel.File bytes =>
    match decode bytes with
    | None => CliModel.raise "OSError"
    | Some h =>
      let (data, e) := SeismicTableModel.seismic_load h [] in
      match SeismicTableModel.serror e with
      | None =>
        CliModel.bind (run data (SeismicTableModel.skeys e) (CliModel.root filename) (SeismicTableModel.sinfo e) typed) (fun _ =>
        CliModel.bind (highlight CitationsModel.biblio_header) (fun _ =>
        CliModel.bind (highlight CitationsModel.quantas_citation) (fun _ =>
        CliModel.bind (highlight CitationsModel.biblio_footer) (fun _ => highlight CitationsModel.quantas_finish))))
      | Some message => failure message
      end
    end
  | _ => failure ("'" +++ filename +++ "' is not a file")
  end)).
(** click.Path(exists=True) *)
Definition export_main (filename : string) (typed : list string) : M unit :=
  CliModel.bind (CliModel.look filename) (fun n => match n with CliModel.Absent => CliModel.raise "UsageError" | _ => body filename typed end).
End Command.
