(** Model of quantas/IO/eos_reader.py. *)
From Coq Require Import Reals String Ascii List Bool Arith.
From Verif Require Import Py DecimalModel.
Import ListNotations.
Open Scope string_scope.

(** eos_reader.py:34-46, 69: _data and _format are class attributes, shared by
    all readers. _data is the job name and the columns present by key, _format
    an insertion-ordered dictionary from column name to position. *)
Record data := { job : string; cols : string -> option (list fl); fmt : list (string * nat) }.
Definition class_data : data := {| job := "Unknown"; cols := fun _ => None; fmt := [] |}.
Definition set_job d j := {| job := j; cols := cols d; fmt := fmt d |}.
Definition set_fmt d f := {| job := job d; cols := cols d; fmt := f |}.
Definition set_col d q v := {| job := job d; cols := fun x => if String.eqb x q then Some v else cols d x; fmt := fmt d |}.

(** eos_reader.py:56-67, the keys of _formats flattened (each token occurs in one list) *)
Definition known : list string :=
  ["p"; "v"; "a"; "b"; "c"; "sigmap"; "sigp"; "sigmav"; "sigv"; "sigmaa"; "siga"; "sigmab"; "sigb"; "sigmac"; "sigc"].

(** An exception leaving the method, or the while loop of lines 207-212 never ending. *)
Inductive stop := Exc (name : string) | Hang.

(** eos_reader.py:154 *)
Definition starts_with (a : ascii) (s : string) : bool := match s with String b _ => Ascii.eqb a b | EmptyString => false end.
Definition is_comment (s : string) : bool := match strip s with EmptyString => true | t => starts_with "#" t end.
Definition keyword (s : string) : string := lower (hd "" (split s)).

(** rstrip('\n'), line 208 *)
Fixpoint chomp (s : string) : string :=
  match s with
  | EmptyString => EmptyString
  | String a r => match chomp r with
                  | EmptyString => if Ascii.eqb a newline then EmptyString else String a EmptyString
                  | t => String a t
                  end
  end.

(** eos_reader.py:207-213; rest is the file after the keyword line *)
Fixpoint job_from (rest : list string) (d : data) : data * option stop :=
  match rest with
  | [] => (d, Some (Exc "IndexError"))
  | l :: r => match chomp l with
              | EmptyString => job_from r d
              | t => match strip t with
                     | EmptyString => (d, Some (Exc "IndexError"))
                     | u => if starts_with "#" u then job_from r d
                            else if String.eqb t "Unknown" then (d, Some Hang)
                            else (set_job d t, None)
                     end
              end
  end.
Definition set_job_name (rest : list string) (d : data) : data * option stop :=
  if String.eqb (job d) "Unknown" then job_from rest d else (d, None).

(** dict[key] = value: an existing key keeps its place *)
Fixpoint dict_set (k : string) (n : nat) (f : list (string * nat)) : list (string * nat) :=
  match f with
  | [] => [(k, n)]
  | (k', n') :: r => if String.eqb k k' then (k, n) :: r else (k', n') :: dict_set k n r
  end.
(** lines 239-242 *)
Fixpoint add_tokens (i : nat) (toks : list string) (f : list (string * nat)) : list (string * nat) :=
  match toks with
  | [] => f
  | t :: r => add_tokens (S i) r (if mem (lower t) known then dict_set (lower t) i f else f)
  end.
(** eos_reader.py:230-243 *)
Fixpoint set_data_format (rest : list string) (d : data) : data * option stop :=
  match rest with
  | [] => (d, Some (Exc "IndexError"))
  | l :: r => if is_comment l then set_data_format r d
              else (set_fmt d (add_tokens 0 (split l) (fmt d)), None)
  end.

Definition E_format := "Data format (FORMAT keyword) not provided".
(** lines 288-289, one data row: the values in dictionary order *)
Fixpoint row_values (f : list (string * nat)) (toks : list string) : list fl + string :=
  match f with
  | [] => inl []
  | (_, n) :: r => match nth_error toks n with
                   | None => inr "IndexError"
                   | Some t => match parse_float t with
                               | None => inr "ValueError"
                               | Some x => match row_values r toks with inl xs => inl (x :: xs) | inr e => inr e end
                               end
                   end
  end.
(** lines 273-289 (the list.append of each row, row by row) *)
Fixpoint table (f : list (string * nat)) (rest : list string) : list (list fl) + string :=
  match rest with
  | [] => inl []
  | l :: r => if is_comment l then table f r
              else match row_values f (split l) with
                   | inr e => inr e
                   | inl xs => match table f r with inl xss => inl (xs :: xss) | inr e => inr e end
                   end
  end.
(** lines 291-292: column k of the rows goes to the k-th name *)
Fixpoint store_columns (k : nat) (f : list (string * nat)) (rows : list (list fl)) (d : data) : data :=
  match f with
  | [] => d
  | (q, _) :: r => store_columns (S k) r rows (set_col d q (map (fun row => nth k row NaN) rows))
  end.
Definition has_key (k : string) (f : list (string * nat)) : bool := existsb (fun p => String.eqb k (fst p)) f.
(** eos_reader.py:257-293. The error message is the second component. *)
Definition set_data (rest : list string) (d : data) (e : option string) : data * option string * option stop :=
  match fmt d with
  | [] => (d, Some E_format, None)
  | f => if has_key "p" f then
           match table f rest with
           | inl rows => (store_columns 0 f rows d, e, None)
           | inr x => (d, e, Some (Exc x))
           end
         else (d, e, Some (Exc "KeyError"))
  end.

(** eos_reader.py:172-186. The three ifs test one keyword, so at most one fires. *)
Fixpoint load_from (lines : list string) (d : data) (e : option string) : data * option string * option stop :=
  match lines with
  | [] => (d, e, None)
  | l :: r =>
      if is_comment l then load_from r d e else
      let k := keyword l in
      let '(d', e', s) :=
        if String.eqb k "job" then let (d', s) := set_job_name r d in (d', e, s)
        else if String.eqb k "format" then let (d', s) := set_data_format r d in (d', e, s)
        else if String.eqb k "data" then set_data r d e
        else (d, e, None) in
      match s with Some _ => (d', e', s) | None => load_from r d' e' end
  end.
Inductive outcome := Completed | Failed (message : string) | Raised (exception : string) | Endless.
(** eos_reader.py:159-191 *)
Definition load (lines : list string) (d : data) : data * outcome :=
  let '(d', e, s) := load_from lines d None in
  (d', match s with
       | Some (Exc x) => Raised x
       | Some Hang => Endless
       | None => match e with Some m => Failed m | None => Completed end
       end).

(** eos_reader.py:83-135 *)
Definition pressure d := cols d "p".
Definition sigma_p d := cols d "sigmap".
Definition volume d := cols d "v".
Definition sigma_v d := cols d "sigmav".
Definition readers (files : list (list string)) (d : data) : data := fold_left (fun s f => fst (load f s)) files d.
