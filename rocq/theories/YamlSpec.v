(** What a YAML reader sees in a block of text: an executable description of
    the part of YAML 1.1 needed to read the generated input files, written
    independently of the writer. Supported: nested block mappings and block
    sequences by indentation, one-line flow sequences of scalars, comments,
    decimal integers, decimal floats and plain strings beginning with a
    letter. Everything else (quotes, flow mappings, anchors, booleans, ...)
    gives None here. *)
From Coq Require Import Reals String Ascii List Bool Arith ZArith NArith.
From Verif Require Import Py DecimalModel QhaReaderModel.
Import ListNotations.
Open Scope string_scope.
Open Scope list_scope.
Open Scope nat_scope.
Notation "a +++ b" := (String.append a b) (at level 60, right associativity).

Fixpoint lines_aux (cur s : string) : list string :=
  match s with
  | EmptyString => [cur]
  | String a r => if Ascii.eqb a newline then cur :: lines_aux EmptyString r else lines_aux (cur +++ String a EmptyString) r
  end.
Definition lines (s : string) : list string := lines_aux EmptyString s.

(** A comment starts with # at the beginning or after a blank. *)
Fixpoint uncomment (after_blank : bool) (s : string) : string :=
  match s with
  | EmptyString => EmptyString
  | String a r => if (after_blank && Ascii.eqb a "#")%bool then EmptyString else String a (uncomment (Ascii.eqb a " ") r)
  end.
(** Indentation and contents of the lines that are not blank. *)
Definition line := (nat * string)%type.
Fixpoint measure (n : nat) (s : string) : line :=
  match s with String a r => if Ascii.eqb a " " then measure (S n) r else (n, s) | EmptyString => (n, s) end.
Definition blank (l : line) : bool := String.eqb (strip (snd l)) "".
Definition content (l : list string) : list line :=
  filter (fun x => negb (blank x)) (map (fun s => measure 0 (uncomment true s)) l).

(** ** Scalars *)
Definition is_letter (a : ascii) : bool := let n := nat_of_ascii a in ((65 <=? n) && (n <=? 90) || (97 <=? n) && (n <=? 122))%nat%bool.
Definition all_digits (s : string) : bool := match take_digits s with (String _ _, EmptyString) => true | _ => false end.
Definition leading_zero (s : string) : bool := match s with String a (String _ _) => Ascii.eqb a "0" | _ => false end.
(** [-+]?(0|[1-9][0-9]* ) *)
Definition int_scalar (s : string) : option Z :=
  let (neg, r) := take_sign s in
  if (all_digits r && negb (leading_zero r))%bool then Some (if neg then - Z.of_N (digits r) else Z.of_N (digits r))%Z else None.
(** [-+]?[0-9]+\.[0-9]*([eE][-+][0-9]+)? *)
Definition float_form (s : string) : bool :=
  let (_, r) := take_sign s in
  let (ip, r1) := take_digits r in
  match ip, r1 with
  | String _ _, String d r2 =>
      (Ascii.eqb d "." &&
       match snd (take_digits r2) with
       | EmptyString => true
       | String e (String sg r3) => Ascii.eqb (lower_ascii e) "e" && (Ascii.eqb sg "-" || Ascii.eqb sg "+") && all_digits r3
       | _ => false
       end)%bool
  | _, _ => false
  end.
(** Words YAML 1.1 turns into something else. *)
Definition reserved : list string := ["y"; "n"; "yes"; "no"; "true"; "false"; "on"; "off"; "null"].
(** The first ": " or final ":" *)
Fixpoint colon (cur s : string) : option (string * string) :=
  match s with
  | EmptyString => None
  | String a r =>
      if (Ascii.eqb a ":" && match r with EmptyString => true | String b _ => Ascii.eqb b " " end)%bool then Some (cur, r)
      else colon (cur +++ String a EmptyString) r
  end.
Definition scalar (s : string) : option yaml :=
  match int_scalar s with
  | Some z => Some (YInt z)
  | None =>
      if float_form s then match parse_float s with Some (Num x) => Some (YNum x) | _ => None end
      else match s with
           | String a _ =>
               if (is_letter a && negb (mem (lower s) reserved))%bool
               then match colon "" s with None => Some (YStr s) | Some _ => None end
               else None
           | EmptyString => None
           end
  end.
(** ** One-line flow sequences: the part after the opening bracket *)
Fixpoint flow (cur s : string) : option (list string) :=
  match s with
  | EmptyString => None
  | String a r =>
      if Ascii.eqb a "]" then (if String.eqb (strip r) "" then Some [cur] else None)
      else if Ascii.eqb a "," then option_map (cons cur) (flow EmptyString r)
      else if (Ascii.eqb a "[" || Ascii.eqb a "{" || Ascii.eqb a "}" || Ascii.eqb a ":")%bool then None
      else flow (cur +++ String a EmptyString) r
  end.
Fixpoint traverse {A B} (f : A -> option B) (l : list A) : option (list B) :=
  match l with
  | [] => Some []
  | x :: r => match f x, traverse f r with Some y, Some ys => Some (y :: ys) | _, _ => None end
  end.
Definition inline (s : string) : option yaml :=
  match strip s with
  | String "["%char r => match flow "" r with Some ws => option_map YList (traverse (fun w => scalar (strip w)) ws) | None => None end
  | t => scalar t
  end.

(** ** Blocks *)
Definition is_item (t : string) : bool :=
  match t with
  | String a r => (Ascii.eqb a "-" && match r with EmptyString => true | String b _ => Ascii.eqb b " " end)%bool
  | EmptyString => false
  end.
(** The longest prefix of lines belonging to the entry, and the rest. *)
Fixpoint span (p : line -> bool) (l : list line) : list line * list line :=
  match l with
  | [] => ([], [])
  | x :: r => if p x then (x :: fst (span p r), snd (span p r)) else ([], l)
  end.
Fixpoint groups (fuel : nat) (p : line -> bool) (l : list line) : list (line * list line) :=
  match fuel, l with
  | S f, x :: r => (x, fst (span p r)) :: groups f p (snd (span p r))
  | _, _ => []
  end.
(** Lines of an item are indented more than its dash. A block sequence that is
    the value of a key may have the indentation of the key. *)
Definition in_item (i : nat) (x : line) : bool := i <? fst x.
Definition in_entry (i : nat) (x : line) : bool := ((i <? fst x) || ((fst x =? i) && is_item (snd x)))%bool.
(** "- rest": the rest and the following lines are a block of their own. *)
Definition seq_entry (sub : list line -> option yaml) (i : nat) (g : line * list line) : option yaml :=
  let '((j, u), body) := g in
  if ((j =? i) && is_item u)%bool then
    match u with
    | String _ r => let (k, v) := measure (S j) r in
                    if String.eqb (strip v) "" then sub body else sub ((k, v) :: body)
    | EmptyString => None
    end
  else None.
(** "key: value", or "key:" and the block of its value. *)
Definition map_entry (sub : list line -> option yaml) (i : nat) (g : line * list line) : option (string * yaml) :=
  let '((j, u), body) := g in
  if ((j =? i) && negb (is_item u))%bool then
    match colon "" u with
    | None => None
    | Some (k, v) =>
        if String.eqb (strip v) "" then option_map (pair k) (sub body)
        else match body with [] => option_map (pair k) (inline v) | _ => None end
    end
  else None.
Fixpoint block (depth : nat) (ls : list line) : option yaml :=
  match depth with
  | O => None
  | S d =>
      match ls with
      | [] => Some YNull
      | (i, t) :: more =>
          if is_item t then option_map YList (traverse (seq_entry (block d) i) (groups (List.length ls) (in_item i) ls))
          else match colon "" t with
               | None => match more with [] => inline t | _ => None end
               | Some _ => option_map YMap (traverse (map_entry (block d) i) (groups (List.length ls) (in_entry i) ls))
               end
      end
  end.
(** The document in a text (nesting up to 30 levels). *)
Definition yaml_of (text : string) : option yaml := block 30 (content (lines text)).

(** The description at work on a small document. *)
Example yaml_example :
  yaml_of (join_lines ["job: a test # comment"; "natom:   2"; "list:"; "- [ 1, -3 ]"; "- sub: "; "  - #1"; "    x: 7"; ""; "  word: w:x"; "last:"]) =
  Some (YMap [("job", YStr "a test"); ("natom", YInt 2);
              ("list", YList [YList [YInt 1; YInt (-3)]; YMap [("sub", YList [YMap [("x", YInt 7)]]); ("word", YStr "w:x")]]);
              ("last", YNull)]).
Proof. vm_compute. reflexivity. Qed.
Example yaml_refuses : yaml_of "job: a: b" = None /\ yaml_of "job: [ 1, " = None /\ yaml_of "job: yes" = None.
Proof. vm_compute. auto. Qed.
