(** The equation of state command, from the text of the input file and the
    answers of the user to the log.
    - /repo/quantas/eosfit/eosfit.py:46-89 (constructor, read_input), 91-135
      (report_input_data), 141-204 (run), 206-280 (report_fit)
    - /repo/quantas/eosfit/commands/cmd_eosfit.py:35-112
    Parameters: EOS.guess, scipy's ODR, click's conversions of typed numbers and
    np.round. The answers are the lines typed; when there are no more, click
    raises Abort. One event per printed line; what utils/interactive.py prints
    (menus, prompts, complaints) goes to the screen only and is not modelled. *)
From Coq Require Import Reals String Ascii List Bool Arith ZArith.
From Verif Require Import Py DecimalModel FormatModel FormatProofs TableModel ReportModel EosReaderModel.
From Verif Require PvEosModel EosFitModel EosReportModel CliModel CitationsModel HaCommandModel.
Import ListNotations.
Open Scope string_scope.
Open Scope list_scope.
Open Scope nat_scope.

(** cmd_eosfit.py:92-112; click allows only 'GPa' and 'A' (lines 40-45) *)
Definition settings_lines : list string :=
  [""; "Calculator: Equation of state (EoS) fitting"; ""; "Measurement units"; "-------------------------------------";
   HaCommandModel.unit_line "pressure:" "GPa"; HaCommandModel.unit_line "lenght:" "A"].
Definition print_settings : string := concat_map (fun l => l +++ nl) settings_lines.
(** No result file is written: the suffix is not used. *)
Definition eosfit_command : CliModel.command := {| CliModel.default_suffix := ""; CliModel.settings := print_settings; CliModel.reports := false |}.

(** Python values which may also be an exception *)
Notation outcome A := (CliModel.result A).

Section Command.
(** EOS.guess(values, pressure), pv_eos.py:51-69 (np.polyfit raises on unsuitable data) *)
Variable guess : list fl -> list fl -> outcome (list R).
Variable parse_int : string -> option nat.
Variable parse_float : string -> option R.
Variable round5 : R -> R.
(** ODR(RealData(values, pressure, sigmaV, sigmaP), the EoS behind the key of the menu, ...).run() *)
Variable odr : list fl -> list fl -> option (list fl) -> option (list fl) -> string -> EosFitModel.fit_plan string -> outcome EosReportModel.output.
(** A fitted parameter which is not a number, as a start value *)
Variable odd : shown -> R.

Section Job.
Variable d : data.
Definition column (q : string) : list fl := match cols d q with Some xs => xs | None => [] end.
(** interactive.py:67-86 *)
Definition available (q : string) : bool := match cols d q with Some _ => true | None => false end.
Definition uncertainty (q : string) : string := "sigma" +++ q.
(** eosfit.py:165 *)
Definition guessed (q : string) : list R := match guess (column q) (column "p") with CliModel.Ok g => g | CliModel.Raises _ => [] end.
(** eosfit.py:174-178; a weight is the column of the uncertainties (interactive.py:373-386) *)
Definition fitted (q menu : string) (p : EosFitModel.fit_plan string) : outcome EosReportModel.output :=
  odr (column q) (column "p") (option_map (fun k => column (uncertainty k)) (EosFitModel.used_sigmaV p))
    (option_map (fun k => column (uncertainty k)) (EosFitModel.used_sigmaP p)) menu p.
Definition number (v : shown) : R := match v with Fin x => x | v => odd v end.
Definition betas (q menu : string) (p : EosFitModel.fit_plan string) : list R :=
  match fitted q menu p with CliModel.Ok r => map (fun i => number (EosReportModel.beta r i)) (seq 0 4) | CliModel.Raises _ => [] end.
Definition step : EosFitModel.point -> string -> EosFitModel.point * list EosFitModel.event :=
  EosFitModel.step available (fun q => available (uncertainty q)) guessed parse_int parse_float round5 betas.

(** eosfit.py:91-135: the lines printed before an exception, and the exception *)
Fixpoint rows_before (i : nat) (ps : list fl) : list string :=
  match ps with
  | [] => []
  | p :: r => match EosReportModel.data_line d i p with Some l => l :: rows_before (S i) r | None => [] end
  end.
Definition report_input : CliModel.method unit :=
  match EosReportModel.report_input_data d with
  | Some ls => (HaCommandModel.say ls, CliModel.Ok tt)
  | None =>
      let heading := ["" ; "Job: " +++ job d; "";
          center 10 "P (GPa)" +++ "  " +++ center 10 "V (A^3)" +++ "  " +++ center 10 "a (A)" +++ "  " +++ center 10 "b (A)" +++ "  " +++ center 10 "c (A)";
          rule 10 +++ "  " +++ rule 10 +++ "  " +++ rule 10 +++ "  " +++ rule 10 +++ "  " +++ rule 10] in
      match cols d "p" with
      | None => (HaCommandModel.say heading, CliModel.Raises "AttributeError")
      | Some ps => (HaCommandModel.say (heading ++ rows_before 0 ps), CliModel.Raises "IndexError")
      end
  end.

(** eosfit.py:180-183 with 206-280: the report of a fit; a missing order would be a KeyError *)
Definition value_at (q : string) (i : nat) : shown := EosReportModel.measured (nth i (column q) NaN).
Definition report (e : EosFitModel.event) : list string * outcome unit :=
  match e with
  | EosFitModel.Rejected => ([], CliModel.Ok tt)
  | EosFitModel.Fitted q menu p =>
      match fitted q menu p with
      | CliModel.Raises x => ([], CliModel.Raises x)
      | CliModel.Ok r =>
          match EosReportModel.report_fit "A" r (List.length (column q)) (value_at q) (value_at "p") (EosReportModel.data_name q) (EosReportModel.eos_name menu)
                  (EosFitModel.plan_order p) (EosFitModel.has_len (EosFitModel.used_sigmaP p)) (EosFitModel.has_len (EosFitModel.used_sigmaV p))
                  (EosFitModel.free p) (EosReportModel.get_label q) with
          | Some ls => (ls, CliModel.Ok tt)
          | None => ([], CliModel.Raises "KeyError")
          end
      end
  end.
Fixpoint reports (es : list EosFitModel.event) : list string * outcome unit :=
  match es with
  | [] => ([], CliModel.Ok tt)
  | e :: r => match report e with
              | (ls, CliModel.Raises x) => (ls, CliModel.Raises x)
              | (ls, CliModel.Ok _) => let (ls', o) := reports r in (ls ++ ls', o)
              end
  end.
Definition started : string := HaCommandModel.banner "Interactive equation of state fitting started".
Definition finished : string := HaCommandModel.banner "Interactive equation of state fitting finished".
(** eosfit.py:148-203: what self.echo prints between the question asked at [st]
    and the one asked at [st'] (apart from the reports of fits) *)
Definition between (st : EosFitModel.point) (ans : string) (st' : EosFitModel.point) : list string :=
  match st, st' with
  | EosFitModel.AtData _, EosFitModel.AtEos _ => [""]
  | EosFitModel.AtFix _, EosFitModel.AtWeights _ _ | EosFitModel.AtFix _, EosFitModel.AtUpdate _ _
  | EosFitModel.AtFixOne _ _, EosFitModel.AtWeights _ _ | EosFitModel.AtFixOne _ _, EosFitModel.AtUpdate _ _ => [""]
  | EosFitModel.AtUpdate _ _, EosFitModel.AtContinue _ => match EosFitModel.confirm_answer false ans with Some true => [""] | _ => [] end
  | EosFitModel.AtContinue _, EosFitModel.AtChangeEos _ | EosFitModel.AtContinue _, EosFitModel.AtOther _ => [""]
  | EosFitModel.AtChangeEos _, EosFitModel.AtEos _ | EosFitModel.AtChangeEos _, EosFitModel.AtModify _ => [""]
  | EosFitModel.AtOther _, EosFitModel.AtData _ => [""]
  | EosFitModel.AtOther _, EosFitModel.Done => [finished]
  | _, _ => []
  end.
(** eosfit.py:164-166: the first guess for a data set is made after the choice of the EoS *)
Definition guess_fails (st st' : EosFitModel.point) : option string :=
  match st, st' with
  | EosFitModel.AtOrder c _, EosFitModel.AtModify _ =>
      match EosFitModel.c_guess c, guess (column (EosFitModel.c_data c)) (column "p") with None, CliModel.Raises e => Some e | _, _ => None end
  | _, _ => None
  end.
Definition turn (st : EosFitModel.point) (ans : string) : list string * outcome EosFitModel.point :=
  let '(st', es) := step st ans in
  match guess_fails st st' with
  | Some e => ([], CliModel.Raises e)
  | None => match reports es with
            | (ls, CliModel.Ok _) => (between st ans st' ++ ls, CliModel.Ok st')
            | (ls, CliModel.Raises e) => (between st ans st' ++ ls, CliModel.Raises e)
            end
  end.
Definition is_done (st : EosFitModel.point) : bool := match st with EosFitModel.Done => true | _ => false end.
Fixpoint conversation (st : EosFitModel.point) (answers : list string) : list string * outcome (option string) :=
  if is_done st then ([], CliModel.Ok None) else
  match answers with
  | [] => ([], CliModel.Raises "Abort")
  | a :: r => match turn st a with
              | (ls, CliModel.Raises e) => (ls, CliModel.Raises e)
              | (ls, CliModel.Ok st') => let (ls', o) := conversation st' r in (ls ++ ls', o)
              end
  end.
(** eosfit.py:141-204 *)
Definition run (answers : list string) : CliModel.method (option string) :=
  let (ls, o) := conversation (EosFitModel.AtData None) answers in (HaCommandModel.say ([started; ""] ++ ls), o).
End Job.

Definition E_structure : string := "No structural data provided in input file".
(** eosfit.py:55-89. A file whose job is called 'Unknown' keeps the reader in its
    loop forever (eos_reader.py:207-212, C40): here an outcome of its own. *)
Definition read_input (f : string) (answers : list string) (text : string) : CliModel.method (string + CliModel.job) :=
  let '(d, o) := load (readlines text) class_data in
  ([CliModel.Say ("Reading input file: " +++ f); CliModel.Debug "Instantiate file reader"],
   match o with
   | Raised e => CliModel.Raises e
   | Endless => CliModel.Raises "(endless loop)"
   | Failed m => CliModel.Ok (inl m)
   | Completed =>
       if existsb (available d) ["v"; "a"; "b"; "c"]
       then CliModel.Ok (inr {| CliModel.report_input_data := report_input d; CliModel.run := run d answers;
              CliModel.report_results := ([], CliModel.Ok tt); CliModel.saved := ""; CliModel.exported := [] |})
       else CliModel.Ok (inl E_structure)
   end).
(** eosfit.py:46-53, core/calculator.py:18-30: nothing is printed *)
Definition eos_calculator (f : string) (answers : list string) : CliModel.calculator :=
  {| CliModel.new := ([], CliModel.Ok tt); CliModel.read_input := read_input f answers |}.
(** quantas eosfit FILE [-o NAME] *)
Definition eosfit (f : string) (outfile : option string) (answers : list string) : CliModel.M unit :=
  CliModel.eosfit CitationsModel.eosfit_texts eosfit_command f outfile (eos_calculator f answers).
End Command.
