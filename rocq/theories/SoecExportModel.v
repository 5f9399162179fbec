(** `quantas export soec FILE`: from the result file and the lines typed to the tables
    written.
    - /repo/quantas/soec/commands/cmd_export.py:35-65
    - /repo/quantas/soec/utils/export.py:20-95
    - /repo/quantas/soec/utils/table.py: [SoecTableModel.soec_write]
    Parameters: what h5py makes of the bytes of a file ([None]: it raises OSError),
    and click's complaint about a wrong choice. Arrays named polar_ are matrices with
    a unit. The dictionary of the class is empty when a process starts. Each line typed
    answers the last question; when there are no more, click raises Abort. *)
From Coq Require Import Reals String Ascii List Bool Arith.
From Verif Require Import Py DecimalModel FormatModel FormatProofs TableModel StoreModel SoecTableModel.
From Verif Require CliModel CitationsModel EosFitModel.
Import ListNotations.
Open Scope string_scope.
Open Scope list_scope.
Open Scope nat_scope.
Import CliModel(M).

Section Command.
Variable decode : string -> option h5.
Variable complaint : string -> list string -> string.

(** ** The local variables degree, data and unit of run, export.py:76-86. They are set
    by the first array whose name has the selection in it, and extended by the others;
    without such an array they keep the values of the table before. *)
Record frame := { angles : list R; width : nat; rows : list (list R); frame_unit : string }.
Definition gather (data : list (string * dataset)) (selection : string) (kept : option frame) : frame + string :=
  match map snd (filter (fun kd => contains selection (fst kd)) data) with
  | [] => match kept with Some fr => inl fr | None => inr "UnboundLocalError" end
  | d :: l =>
    let m := matrix_of (values d) in
    match hstack (map (@tl R) m) (columns m) l with
    | None => inr "ValueError"
    | Some (value, n) => inl {| angles := map (fun r => hd 0%R r) m; width := n; rows := value; frame_unit := unit_of d |}
    end
  end.
Definition table_of (fr : frame) (selection : string) : written := soec_write (angles fr) (width fr) (rows fr) selection (frame_unit fr).

(** ** run, export.py:66-95 *)
Section Run.
Variable data : list (string * dataset).
Variable choices : list string.
Variable basename : string.
Definition echo (msg : string) : M unit := CliModel.echo msg None false.
(** 92-95; the file is opened first, what is written before an exception stays *)
Definition save (fr : frame) (selection outfile : string) : M unit :=
  CliModel.bind (CliModel.write outfile (fst (table_of fr selection))) (fun _ =>
  match snd (table_of fr selection) with
  | Done => echo ("Data successfully exported to '" +++ outfile +++ "'")
  | Raised e => CliModel.raise e
  end).
Definition choice_question : string := "Select data to export".
Definition overwrite_question (file : string) : string := "File '" +++ file +++ "' exists. Overwrite it?".
Definition name_question : string := "Please, enter a file name".
Definition more_question : string := "Would you like to export other data?".
Definition ask (question : string) : M unit := CliModel.show CliModel.Question question.
(** The question last asked, with the local variables. *)
Inductive stage := Choosing (kept : option frame) | Overwriting (fr : frame) (selection : string) | Naming (fr : frame) (selection : string) | Continuing (fr : frame).
(** click.prompt asks again after an empty line, and after a line which is not one
    of the choices; click.confirm (default: no) after anything but y/yes/n/no. *)
Fixpoint dialogue (at_ : stage) (typed : list string) : M unit :=
  match typed with
  | [] => CliModel.raise "Abort"
  | t :: typed =>
    match at_ with
    | Choosing kept =>
      if String.eqb t "" then CliModel.bind (ask choice_question) (fun _ => dialogue (Choosing kept) typed)
      else if mem t choices then
        match gather data t kept with
        | inr e => CliModel.raise e
        | inl fr =>
          CliModel.bind (CliModel.look (default_name basename t)) (fun n =>
          match n with
          | CliModel.Absent =>
            CliModel.bind (save fr t (default_name basename t)) (fun _ => CliModel.bind (ask more_question) (fun _ => dialogue (Continuing fr) typed))
          | _ => CliModel.bind (ask (overwrite_question (default_name basename t))) (fun _ => dialogue (Overwriting fr t) typed)
          end)
        end
      else CliModel.bind (echo (complaint t choices)) (fun _ => CliModel.bind (ask choice_question) (fun _ => dialogue (Choosing kept) typed))
    | Overwriting fr sel =>
      match EosFitModel.confirm_answer false t with
      | Some true =>
        CliModel.bind (save fr sel (default_name basename sel)) (fun _ => CliModel.bind (ask more_question) (fun _ => dialogue (Continuing fr) typed))
      | Some false => CliModel.bind (ask name_question) (fun _ => dialogue (Naming fr sel) typed)
      | None =>
        CliModel.bind (echo "Error: invalid input") (fun _ =>
        CliModel.bind (ask (overwrite_question (default_name basename sel))) (fun _ => dialogue (Overwriting fr sel) typed))
      end
    | Naming fr sel =>
      if String.eqb t "" then CliModel.bind (ask name_question) (fun _ => dialogue (Naming fr sel) typed)
      else CliModel.bind (save fr sel t) (fun _ => CliModel.bind (ask more_question) (fun _ => dialogue (Continuing fr) typed))
    | Continuing fr =>
      match EosFitModel.confirm_answer false t with
      | Some true => CliModel.bind (echo "") (fun _ => CliModel.bind (ask choice_question) (fun _ => dialogue (Choosing (Some fr)) typed))
      | Some false => CliModel.ret tt
      | None => CliModel.bind (echo "Error: invalid input") (fun _ => CliModel.bind (ask more_question) (fun _ => dialogue (Continuing fr) typed))
      end
    end
  end.
Definition run (about : string) (typed : list string) : M unit :=
  CliModel.bind (echo about) (fun _ => CliModel.bind (echo "") (fun _ => CliModel.bind (ask choice_question) (fun _ => dialogue (Choosing None) typed))).
End Run.

(** ** The command, cmd_export.py:35-65 *)
Definition highlight (msg : string) : M unit := CliModel.echo_highlight msg None false.
Definition failure (msg : string) : M unit :=
  CliModel.bind (CliModel.echo_error CitationsModel.quantas_error None false) (fun _ => CliModel.echo_error msg None false).
Definition body (filename : string) (typed : list string) : M unit :=
  CliModel.bind (highlight CitationsModel.quantas_title) (fun _ =>
  CliModel.bind (CliModel.look filename) (fun n =>
  match n with
  | CliModel.File bytes =>
    match decode bytes with
    | None => CliModel.raise "OSError"
    | Some h =>
      let (data, e) := soec_load h [] in
      match error e, info h with
      | None, Some about =>
        CliModel.bind (run data (keys e) (CliModel.root filename) about typed) (fun _ =>
        CliModel.bind (highlight CitationsModel.biblio_header) (fun _ =>
        CliModel.bind (highlight CitationsModel.quantas_citation) (fun _ =>
        CliModel.bind (highlight CitationsModel.biblio_footer) (fun _ => highlight CitationsModel.quantas_finish))))
      | None, None => CliModel.raise "AttributeError" (* cannot be: load needs the info *)
      | Some message, _ => failure message
      end
    end
  | _ => failure ("'" +++ filename +++ "' is not a file")
  end)).
(** click.Path(exists=True) *)
Definition export_main (filename : string) (typed : list string) : M unit :=
  CliModel.bind (CliModel.look filename) (fun n => match n with CliModel.Absent => CliModel.raise "UsageError" | _ => body filename typed end).
End Command.
