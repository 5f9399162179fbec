(** The input generator for elastic constants: `quantas inpgen soec`.
    - /repo/quantas/soec/commands/cmd_inpgen.py:38-95
    - /repo/quantas/IO/soec_writer.py:15-83
    - /repo/quantas/cmdline/utils/messages.py:233-256 (prompt)
    Files and terminal are those of CliModel; the two readers are those of
    SoecInterfaceModel, constructed once in a new process.
    Simplified: whether the bytes of a file are text is one question about the
    whole file, asked before reading it; the sign of a zero is not printed. *)
From Coq Require Import Reals String Ascii List Bool Arith NArith.
From Verif Require Import Py DecimalModel SoecIOModel SoecInterfaceModel CliModel.
Import ListNotations.
Open Scope string_scope.
Open Scope list_scope.
Open Scope nat_scope.

Inductive interface := Crystal | Vasp.
(** generator.read: (True, None) with the data kept; (False, error); an exception *)
Inductive reading := Got (m : flmat) (rho : fl) | Refused (error : string) | Threw (e : string).

Section Inpgen.
Variable t : texts.
Variable round_abs : nat -> R -> N.
Variable is_text : string -> bool.

Definition nl : string := String newline "".
(** '{}'.format(i + 1) for i < 9 *)
Definition index_text (i : nat) : string := nth i ["1"; "2"; "3"; "4"; "5"; "6"; "7"; "8"; "9"] "".
(** crystal.py:1437-1464, vasp.py:37-56 *)
Definition element_error (i j : nat) (file : string) : string :=
  "Problem in collecting the SOEC matrix element " +++ index_text i +++ " " +++ index_text j +++ nl +++ "Please, check the " +++ file.
Definition error_text (k : interface) (filename : string) (s : status) : string :=
  match k, s with
  | Crystal, NotOutput => "This does not appear to be a CRYSTAL14/17 output " +++ nl +++ "related to elastic constants calculations"
  | Crystal, NotCompleted => "This CRYSTAL14/17 SOEC calculation has not been completed"
  | Crystal, SoecInterfaceModel.Error i j => element_error i j "CRYSTAL output file"
  | Vasp, NotOutput => "'" +++ filename +++ "' does not appear to be a VASP output" +++ nl +++ "related to elastic moduli calculation"
  | Vasp, SoecInterfaceModel.Error i j => element_error i j "OUTCAR file"
  | _, _ => ""
  end.
(** The data of the class in a new process; VASPSOECReader has density 0 (vasp.py:25). *)
Definition collect (k : interface) (filename content : string) : reading :=
  if negb (is_text content) then Threw "UnicodeDecodeError"
  else match k with
  | Crystal =>
      match crystal_load (readlines content) crystal_new with
      | (c, SoecInterfaceModel.Completed) => Got (c_stiffness c) (c_density c)
      | (_, Crash e) => Threw e
      | (_, s) => Refused (error_text k filename s)
      end
  | Vasp =>
      match vasp_load (readlines content) (fun _ _ => Num 0) with
      | (m, SoecInterfaceModel.Completed) => Got m (Num 0)
      | (_, Crash e) => Threw e
      | (_, s) => Refused (error_text k filename s)
      end
  end.

(** '{: > 11.4f} ' and '{:9.1f}', also of nan *)
Definition cell_text (v : fl) : string :=
  match v with Num x => SoecIOModel.cell round_abs x | NaN => pad_left 11 " nan" +++ " " end.
Definition last_text (v : fl) : string :=
  match v with Num x => density_text round_abs x | NaN => pad_left 9 "nan" end.
(** soec_writer.py:56-83 *)
Definition soec_text (jobname : string) (m : flmat) (rho : fl) : string :=
  join_lines ([jobname] ++ List.map (fun i => String.concat "" (List.map (fun j => cell_text (m i j)) (seq 0 6))) (seq 0 6)
              ++ [last_text rho]).

(** messages.py:233-256 with click.prompt: the line typed, the default for an
    empty one, or an interruption (click.Abort). *)
Definition prompt (question default : string) (answer : result string) : M string :=
  show Question question ;;
  match answer with Ok a => ret (if String.eqb a "" then default else a) | Raises e => raise e end.

Definition input_path (filename : string) (outfile : option string) : string :=
  match outfile with None => root filename +++ "_soec_input.dat" | Some o => o +++ ".dat" end.
Definition description : string := nl +++ "Please, enter a short description for the input file: ".
Definition fails (msg : string) : M unit :=
  echo_error (error_banner t) None false ;; echo_error msg None false.
(** cmd_inpgen.py:38-95; a path which does not exist is refused by click. *)
Definition soec_inpgen (k : interface) (filename : string) (outfile : option string) (answer : result string) : M unit :=
  do n <- look filename;
  match n with
  | Absent => raise "BadParameter"
  | _ =>
    let out := input_path filename outfile in
    echo_highlight (title t) None false ;;
    match n with
    | File content =>
        match collect k filename content with
        | Threw e =>
            if String.eqb e "KeyError" then fails ("File '" +++ filename +++ "' does not appear as a valid input file")
            else if String.eqb e "UnicodeDecodeError" then fails ("File '" +++ filename +++ "' is in binary format")
            else raise e
        | Refused error => fails error
        | Got m rho =>
            echo ("Preparing the input file for Quantas: '" +++ out +++ "'") None false ;;
            (do jobname <- prompt description "Unknown" answer;
            write out (soec_text jobname m rho) ;;
            echo_highlight (bib_header t) None false ;;
            echo_highlight (own_citation t) None false ;;
            echo_highlight (bib_footer t) None false ;;
            echo_highlight (finish t) None false)
        end
    | _ => fails (filename +++ " is not a file")
    end
  end.
End Inpgen.
