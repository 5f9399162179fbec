(** Terminal messages, log file, and the command functions which run a
    calculator and save its results.
    - /repo/quantas/cmdline/utils/messages.py:77-226
    - /repo/quantas/core/calculator.py:86-119
    - /repo/quantas/qha/commands/cmd_qha.py, /repo/quantas/harmonic/commands/cmd_ha.py,
      /repo/quantas/soec/commands/cmd_soec.py, /repo/quantas/seismic/commands/cmd_seismic.py,
      /repo/quantas/eosfit/commands/cmd_eosfit.py
    Paths are strings; a path holds nothing, a file with a text, or a directory.
    Simplified: permissions, missing parent directories, links and two
    spellings of one path are not modelled; colours and bold are dropped;
    figures are not modelled. *)
From Coq Require Import String Ascii List Bool Arith.
From Verif Require Import DecimalModel.
Import ListNotations.
Open Scope string_scope.
Open Scope list_scope.
Open Scope nat_scope.
Notation "a +++ b" := (String.append a b) (at level 60, right associativity).

(** * os.path.splitext (Python's genericpath._splitext with '/' and '.') *)
(** str.rfind of one character; None is -1 *)
Fixpoint rfind (c : ascii) (s : string) : option nat :=
  match s with
  | EmptyString => None
  | String a t => match rfind c t with
                  | Some i => Some (S i)
                  | None => if Ascii.eqb a c then Some 0 else None
                  end
  end.
(** p[:n] and p[n:] *)
Fixpoint prefix (n : nat) (s : string) : string :=
  match n, s with S n, String a t => String a (prefix n t) | _, _ => "" end.
Fixpoint suffix (n : nat) (s : string) : string :=
  match n, s with S n, String _ t => suffix n t | _, _ => s end.
Fixpoint has_other (c : ascii) (s : string) : bool :=
  match s with EmptyString => false | String a t => negb (Ascii.eqb a c) || has_other c t end.
Definition splitext (p : string) : string * string :=
  let first := match rfind "/" p with None => 0 | Some i => S i end in   (* sepIndex + 1 *)
  match rfind "." p with
  | Some d => if (first <=? d) && has_other "." (prefix (d - first) (suffix first p))
              then (prefix d p, suffix d p) else (p, "")
  | None => (p, "")
  end.
Definition root (p : string) : string := fst (splitext p).

(** * World: files and what the terminal has shown *)
Inductive node := Absent | File (content : string) | Dir.
Inductive kind := Plain | Highlight | Error | Warning | Question.
Record world := { fs : string -> node; screen : list (kind * string) }.
Definition update (f : string -> node) (p : string) (n : node) : string -> node :=
  fun q => if String.eqb q p then n else f q.

Inductive result (A : Type) := Ok (a : A) | Raises (e : string).
Arguments Ok {A}. Arguments Raises {A}.
Definition M (A : Type) := world -> result A * world.
Definition ret {A} (a : A) : M A := fun w => (Ok a, w).
Definition raise {A} (e : string) : M A := fun w => (Raises e, w).
Definition bind {A B} (m : M A) (k : A -> M B) : M B := fun w =>
  match m w with (Ok a, v) => k a v | (Raises e, v) => (Raises e, v) end.
Notation "'do' x <- m ; k" := (bind m (fun x => k)) (at level 200, x name, m at level 100, k at level 200, right associativity).
Notation "m ;; k" := (bind m (fun _ => k)) (at level 90, right associativity).

Definition show (k : kind) (msg : string) : M unit := fun w =>
  (Ok tt, {| fs := fs w; screen := screen w ++ [(k, msg)] |}).
Definition write (p content : string) : M unit := fun w =>
  match fs w p with
  | Dir => (Raises "IsADirectoryError", w)
  | _ => (Ok tt, {| fs := update (fs w) p (File content); screen := screen w |})
  end.
Definition append (p text : string) : M unit := fun w =>
  match fs w p with
  | Dir => (Raises "IsADirectoryError", w)
  | File c => (Ok tt, {| fs := update (fs w) p (File (c +++ text)); screen := screen w |})
  | Absent => (Ok tt, {| fs := update (fs w) p (File text); screen := screen w |})
  end.
Definition look (p : string) : M node := fun w => (Ok (fs w p), w).

(** * messages.py *)
(** print(text, file=...) *)
Definition line (msg : string) : string := msg +++ String newline "".
Definition log (logfile : option string) (msg : string) : M unit :=
  match logfile with None => ret tt | Some p => append p (line msg) end.
(** 77-90 *)
Definition init_logfile (logfile : option string) : M unit :=
  match logfile with None => ret tt | Some p => write p (line "") end.
(** 93-118 *)
Definition echo (msg : string) (logfile : option string) (silent : bool) : M unit :=
  (if negb silent then show Plain msg else ret tt) ;; log logfile msg.
(** 121-146; 'silent' is accepted and not used *)
Definition echo_error (msg : string) (logfile : option string) (silent : bool) : M unit :=
  show Error msg ;; log logfile msg.
(** 148-173; the same *)
Definition echo_warning (msg : string) (logfile : option string) (silent : bool) : M unit :=
  show Warning msg ;; log logfile msg.
(** 176-201 *)
Definition echo_highlight (msg : string) (logfile : option string) (silent : bool) : M unit :=
  (if negb silent then show Highlight msg else ret tt) ;; log logfile msg.
(** 204-231: the question is shown, not logged. The answer is yes, no, or an
    interruption (click.Abort). *)
Definition confirm (question : string) (answer : result bool) : M bool :=
  show Question question ;; match answer with Ok b => ret b | Raises e => raise e end.

(** * Calculators (core/calculator.py:96-119) *)
(** What a calculator prints: self.echo, self.echo_override, self.echo_warning,
    self.echo_debug (echo_time is self.echo with the elapsed time). *)
Inductive event := Say (msg : string) | SayAlways (msg : string) | Warn (msg : string) | Debug (msg : string).
Definition perform (logfile : string) (silent debug : bool) (e : event) : M unit :=
  match e with
  | Say m => echo m (Some logfile) silent
  | SayAlways m => echo m (Some logfile) false
  | Warn m => echo_warning m (Some logfile) silent
  | Debug m => if debug then echo ("Debug: " +++ m) (Some logfile) silent else ret tt
  end.
Fixpoint performs (logfile : string) (silent debug : bool) (l : list event) : M unit :=
  match l with [] => ret tt | e :: l => perform logfile silent debug e ;; performs logfile silent debug l end.
(** A method: what it prints, then its value or its exception. *)
Definition method (A : Type) : Type := list event * result A.
Definition call {A} (logfile : string) (silent debug : bool) (m : method A) : M A :=
  performs logfile silent debug (fst m) ;; match snd m with Ok a => ret a | Raises e => raise e end.

(** A calculator is whatever it prints and returns: its constructor, reading a
    text (an error message, or the job to run), and the job's methods. 'run'
    returns None if completed, otherwise self.error. *)
Record job := {
  report_input_data : method unit;
  run : method (option string);
  report_results : method unit;
  saved : string;                 (* content of the HDF5 file *)
  exported : list event           (* printed by export_hdf5 *)
}.
Record calculator := { new : method unit; read_input : string -> method (string + job) }.

(** * The commands *)
Record texts := { title : string; error_banner : string; bib_header : string; bib_footer : string;
                  own_citation : string; citation : string; finish : string }.
(** One command: the default suffix, its printed settings, and whether it calls
    report_results (only qha does). *)
Record command := { default_suffix : string; settings : string; reports : bool }.

Definition outpath (c : command) (filename : string) (outfile : option string) : string :=
  match outfile with None => root filename +++ default_suffix c | Some o => o +++ ".hdf5" end.
Definition logpath (out : string) : string := root out +++ ".txt".

Definition export_hdf5 (logfile : string) (silent debug : bool) (j : job) (out : string) : M unit :=
  write out (saved j) ;; performs logfile silent debug (exported j).

Section Command.
Variable t : texts.
(** cmd_qha.py:117-194, cmd_ha.py:63-136, cmd_soec.py:55-127,
    cmd_seismic.py:71-147 (without --plot and --only-plot).
    A path which does not exist is refused by click before the function. *)
Definition closing (logfile : string) (silent : bool) : M unit :=
  echo_highlight (bib_header t) (Some logfile) silent ;;
  echo_highlight (own_citation t) (Some logfile) silent ;;
  echo_highlight (citation t) (Some logfile) silent ;;
  echo_highlight (bib_footer t) (Some logfile) silent ;;
  echo_highlight (finish t) (Some logfile) silent.

Definition question (out : string) : string := "Output file " +++ out +++ " exists. Would you like to overwrite it?".

Definition save (logfile out : string) (silent debug : bool) (j : job) (answer : result bool) : M unit :=
  do n <- look out;
  match n with
  | Absent => export_hdf5 logfile silent debug j out
  | _ =>
    do ans <- confirm (question out) answer;
    if (ans : bool) then export_hdf5 logfile silent debug j out
    else echo "Results not saved" (Some logfile) false
  end.

Definition conclude (c : command) (logfile out : string) (silent debug : bool) (j : job) (answer : result bool) : M unit :=
  call logfile silent debug (report_input_data j) ;;
  do e <- call logfile silent debug (run j);
  match e with
  | Some err =>
    echo_error (error_banner t) (Some logfile) false ;;
    echo_error err (Some logfile) false
  | None =>
    (if reports c then call logfile silent debug (report_results j) else ret tt) ;;
    save logfile out silent debug j answer ;;
    closing logfile silent
  end.

Definition body (c : command) (filename logfile out : string) (silent debug : bool)
    (k : calculator) (answer : result bool) : M unit :=
  do n <- look filename;
  match n with
  | File _ =>
    echo (settings c) (Some logfile) silent ;;
    call logfile silent debug (new k) ;;
    (do m <- look filename;
    do r <- call logfile silent debug (read_input k (match m with File s => s | _ => "" end));
    match r with
    | inl err =>
      echo_error (error_banner t) None false ;;
      echo_error err (Some logfile) false
    | inr j => conclude c logfile out silent debug j answer
    end)
  | _ =>
    echo_error (error_banner t) (Some logfile) false ;;
    echo_error (filename +++ " is not a file") (Some logfile) false
  end.

Definition main (c : command) (filename : string) (outfile : option string) (silent debug : bool)
    (k : calculator) (answer : result bool) : M unit :=
  do n <- look filename;
  match n with
  | Absent => raise "BadParameter"
  | _ =>
    let out := outpath c filename outfile in
    let logfile := logpath out in
    init_logfile (Some logfile) ;;
    echo_highlight (title t) (Some logfile) silent ;;
    body c filename logfile out silent debug k answer
  end.

(** cmd_eosfit.py:44-94: with an explicit output name, 'logfile += ".log"'
    reads the unbound local. The calculator is never silent, there is no debug,
    completion is not tested and nothing is saved. *)
Definition eosfit_log (filename : string) : string := root filename +++ ".log".
Definition eosfit (c : command) (filename : string) (outfile : option string) (k : calculator) : M unit :=
  do n <- look filename;
  match n with
  | Absent => raise "BadParameter"
  | _ =>
    match outfile with
    | Some _ => raise "UnboundLocalError"
    | None =>
      let logfile := eosfit_log filename in
      init_logfile (Some logfile) ;;
      echo_highlight (title t) (Some logfile) false ;;
      (do m <- look filename;
      match m with
      | File _ =>
        echo (settings c) (Some logfile) false ;;
        call logfile false false (new k) ;;
        (do m <- look filename;
        do r <- call logfile false false (read_input k (match m with File s => s | _ => "" end));
        match r with
        | inl err =>
          echo_error (error_banner t) None false ;;
          echo_error err (Some logfile) false
        | inr j =>
          call logfile false false (report_input_data j) ;;
          call logfile false false (run j) ;;
          closing logfile false
        end)
      | _ =>
        echo_error (error_banner t) (Some logfile) false ;;
        echo_error (filename +++ " is not a file") (Some logfile) false
      end)
    end
  end.
End Command.

Definition ha_command (s : string) : command := {| default_suffix := "_HA.hdf5"; settings := s; reports := false |}.
Definition qha_command (s : string) : command := {| default_suffix := "_QHA.hdf5"; settings := s; reports := true |}.
Definition soec_command (s : string) : command := {| default_suffix := "_SOEC.hdf5"; settings := s; reports := false |}.
Definition seismic_command (s : string) : command := {| default_suffix := "_SEISMIC.hdf5"; settings := s; reports := false |}.
