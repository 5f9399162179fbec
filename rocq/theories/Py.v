(** Shared vocabulary: the few Python built-ins the models need. *)
From Coq Require Import String Ascii List Bool Arith ZArith.
Import ListNotations.
Open Scope string_scope.

(** Python [str.lower] restricted to ASCII letters; other bytes are unchanged
    (simplification: non-ASCII letters are not folded). *)
Definition lower_ascii (a : ascii) : ascii :=
  let n := nat_of_ascii a in
  if (65 <=? n)%nat && (n <=? 90)%nat then ascii_of_nat (n + 32) else a.

Fixpoint lower (s : string) : string :=
  match s with
  | EmptyString => EmptyString
  | String a r => String (lower_ascii a) (lower r)
  end.

(** Python [x in [..]] on a list of string literals. *)
Definition mem (s : string) (l : list string) : bool := existsb (String.eqb s) l.

(** str.isspace on ASCII: \t \n \v \f \r, \x1c-\x1f and space. *)
Definition is_space (a : ascii) : bool :=
  let n := nat_of_ascii a in
  ((9 <=? n) && (n <=? 13) || (28 <=? n) && (n <=? 32))%nat%bool.

(** str.strip() *)
Fixpoint lstrip (s : string) : string :=
  match s with
  | EmptyString => EmptyString
  | String a s' => if is_space a then lstrip s' else s
  end.
Fixpoint all_space (s : string) : bool :=
  match s with EmptyString => true | String a s' => is_space a && all_space s' end.
Fixpoint rstrip (s : string) : string :=
  match s with
  | EmptyString => EmptyString
  | String a s' => if all_space s then EmptyString else String a (rstrip s')
  end.
Definition strip (s : string) : string := rstrip (lstrip s).

(** str.split() with no argument: maximal runs of non-space characters. *)
Fixpoint split_aux (cur : string) (s : string) : list string :=
  match s with
  | EmptyString => match cur with EmptyString => nil | _ => cons cur nil end
  | String a s' =>
      if is_space a
      then match cur with EmptyString => split_aux EmptyString s' | _ => cons cur (split_aux EmptyString s') end
      else split_aux (cur ++ String a EmptyString) s'
  end.
Definition split (s : string) : list string := split_aux EmptyString s.
