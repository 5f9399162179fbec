(** Reading a printed line: the words between blanks, without the bars between
    columns, and what each of them says. *)
From Coq Require Import Reals String List Bool Arith ZArith.
From Verif Require Import Py DecimalModel FormatModel FormatProofs ReportModel.
Import ListNotations.
Open Scope string_scope.
Open Scope list_scope.
Open Scope nat_scope.

Definition words (line : string) : list string := filter (fun w => negb (String.eqb w "|")) (split line).
(** A word, a number correctly rounded to so many decimals, or to so many digits
    after the first one, or an integer. *)
Inductive cell := Word (w : string) | Decimals (k : nat) (x : R) | Digits (k : nat) (x : R) | Whole (z : Z).
Definition reads (w : string) (c : cell) : Prop :=
  match c with
  | Word v => w = v
  | Decimals k x => exists v, parse_float w = Some (Num v) /\ rounded k x v
  | Digits k x => exists v, parse_float w = Some (Num v) /\ rounded_sig k x v
  | Whole z => parse_float w = Some (Num (IZR z))
  end.
Definition says (line : string) (cs : list cell) : Prop := Forall2 reads (words line) cs.
(** What the reader is told about a float. *)
Definition told (k : nat) (v : shown) : cell := match v with Fin x => Decimals k x | Inf => Word "inf" | Nan => Word "nan" end.
(** Somewhere in the report, these lines one after the other. *)
Definition contains (report block : list string) : Prop := exists before after, report = before ++ block ++ after.
