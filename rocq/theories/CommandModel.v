(** Names of commands and the suggestions for mistyped ones.
    - /repo/quantas/cmdline/utils/general.py (MostSimilarCommandGroup)
    - /repo/quantas/cmdline/commands/cmd_quantas.py:45-50, cmd_export.py:27-29,
      cmd_inpgen.py:26-27 (what is registered)
    - Python's difflib (get_close_matches, SequenceMatcher), which decides the
      suggestions
    Characters are bytes. What click does before (options, no argument) and after
    (the usage message of ctx.fail, exit status 2) is not modelled. Ratios are
    compared as fractions: doubles order fractions of such small numbers
    alike. *)
From Coq Require Import String Ascii List Bool Arith.
Import ListNotations.
Open Scope string_scope.
Open Scope list_scope.
Open Scope nat_scope.
Notation "a +++ b" := (String.append a b) (at level 60, right associativity).

(** * difflib.SequenceMatcher *)
Definition word := list ascii.
Fixpoint count (c : ascii) (w : word) : nat := match w with [] => 0 | x :: w => (if Ascii.eqb x c then 1 else 0) + count c w end.
(** __chain_b: characters of a word of 200 or more that are too frequent are not
    used to find blocks *)
Definition popular (b : word) (c : ascii) : bool := (200 <=? List.length b) && (List.length b / 100 + 1 <? count c b).

Section Matching.
Variable skipped : ascii -> bool.
(** find_longest_match; the windows a[alo:ahi] and b[blo:bhi] are words of their
    own here. [row] holds the lengths of the blocks that end at the previous
    character of a and at each one of b (j2len). *)
Fixpoint next_row (c : ascii) (b : word) (diagonal : nat) (row : list nat) : list nat :=
  match b, row with
  | y :: b, r :: row => (if Ascii.eqb c y && negb (skipped y) then S diagonal else 0) :: next_row c b r row
  | _, _ => []
  end.
Definition block := (nat * nat * nat)%type. (* besti, bestj, bestsize *)
Fixpoint better (i j : nat) (row : list nat) (best : block) : block :=
  match row with
  | [] => best
  | k :: row => better i (S j) row (if snd best <? k then (S i - k, S j - k, k) else best)
  end.
Fixpoint scan (i : nat) (a b : word) (row : list nat) (best : block) : block :=
  match a with
  | [] => best
  | c :: a => let row := next_row c b 0 row in scan (S i) a b row (better i 0 row best)
  end.
Definition same_at (a b : word) (i j : nat) : bool :=
  match nth_error a i, nth_error b j with Some x, Some y => Ascii.eqb x y | _, _ => false end.
(** the two loops that enlarge the block by skipped characters *)
Fixpoint grow_left (a b : word) (i j k : nat) : block :=
  match i with
  | 0 => (i, j, k)
  | S i' => match j with
            | 0 => (i, j, k)
            | S j' => if same_at a b i' j' then grow_left a b i' j' (S k) else (i, j, k)
            end
  end.
Fixpoint grow_right (fuel : nat) (a b : word) (i j k : nat) : block :=
  match fuel with
  | 0 => (i, j, k)
  | S fuel => if same_at a b (i + k) (j + k) then grow_right fuel a b i j (S k) else (i, j, k)
  end.
Definition longest (a b : word) : block :=
  let '(i, j, k) := scan 0 a b (repeat 0 (List.length b)) (0, 0, 0) in
  let '(i, j, k) := grow_left a b i j k in
  grow_right (List.length a) a b i j k.
(** get_matching_blocks and the sum of ratio(): the longest block, then what is
    left of it and what is right of it. The fuel is never exhausted. *)
Fixpoint matched (fuel : nat) (a b : word) : nat :=
  match fuel with
  | 0 => 0
  | S fuel => let '(i, j, k) := longest a b in
              if k =? 0 then 0
              else matched fuel (firstn i a) (firstn j b) + k + matched fuel (skipn (i + k) a) (skipn (j + k) b)
  end.
End Matching.

(** A ratio as numerator and denominator: 2.0 * matches / length *)
Definition fraction := (nat * nat)%type.
Definition at_least_half (f : fraction) : bool := if snd f =? 0 then true else snd f <=? 2 * fst f.
Definition ratio (a b : word) : fraction := (2 * matched (popular b) (S (List.length a)) a b, List.length a + List.length b).
(** quick_ratio: occurrences in b used up by a *)
Fixpoint available (avail : ascii -> nat) (a : word) : nat :=
  match a with
  | [] => 0
  | c :: a => (if 0 <? avail c then 1 else 0) + available (fun x => if Ascii.eqb x c then avail c - 1 else avail x) a
  end.
Definition quick_ratio (a b : word) : fraction := (2 * available (fun c => count c b) a, List.length a + List.length b).
Definition real_quick_ratio (a b : word) : fraction := (2 * Nat.min (List.length a) (List.length b), List.length a + List.length b).
(** the value of an empty comparison is 1.0 *)
Definition less (f g : fraction) : bool :=
  let '(p, q) := if snd f =? 0 then (1, 1) else f in let '(r, s) := if snd g =? 0 then (1, 1) else g in p * s <? r * q.
(** heapq.nlargest of (score, name): by score, then by name, descending *)
Definition before (x y : fraction * string) : bool :=
  less (fst y) (fst x) || (negb (less (fst x) (fst y)) && negb (String.leb (snd x) (snd y))).
Fixpoint insert_ (x : fraction * string) (l : list (fraction * string)) : list (fraction * string) :=
  match l with [] => [x] | y :: r => if before y x then y :: insert_ x r else x :: l end.
Definition descending (l : list (fraction * string)) : list (fraction * string) := fold_right insert_ [] l.
Definition letters (s : string) : word := list_ascii_of_string s.
(** difflib.get_close_matches(typed, names, n=3, cutoff=0.5) *)
Definition close_matches (typed : string) (names : list string) : list string :=
  let w := letters typed in
  let result := flat_map (fun x => let a := letters x in
                  if at_least_half (real_quick_ratio a w) && at_least_half (quick_ratio a w) && at_least_half (ratio a w)
                  then [(ratio a w, x)] else []) names in
  map snd (firstn 3 (descending result)).

(** * The group *)
Fixpoint insert_name (x : string) (l : list string) : list string :=
  match l with [] => [x] | y :: r => if String.leb x y then x :: l else y :: insert_name x r end.
Definition sorted (l : list string) : list string := fold_right insert_name [] l.
Inductive answer := Command (name : string) | Fails (shown message : string).
Definition nl : string := String (ascii_of_nat 10) "".
Definition tab : string := String (ascii_of_nat 9) "".
Fixpoint join (sep : string) (l : list string) : string :=
  match l with [] => "" | [x] => x | x :: l => x +++ sep +++ join sep l end.
(** general.py:37-41; click's list_commands is sorted *)
Definition suggestions (names : list string) (typed : string) : list string :=
  let names := sorted names in
  match close_matches typed names with
  | [] => firstn 3 (filter (fun c => String.prefix typed c) (sorted names))
  | l => l
  end.
(** general.py:25-60; [banner] is quantas_error() *)
Definition get_command (banner : string) (names : list string) (typed : string) : answer :=
  if existsb (String.eqb typed) names then Command typed
  else match suggestions names typed with
       | [] => Fails banner ("'" +++ typed +++ "' is not a Quantas command." +++ nl +++ nl +++ "No similar commands found.")
       | l => Fails banner ("'" +++ typed +++ "' is not a Quantas command." +++ nl +++ nl +++ "The most similar commands are: " +++ nl +++
                            join nl (map (fun m => tab +++ m) (sorted l)))
       end.
(** cmd_quantas.py:45-50, cmd_export.py:27-29, cmd_inpgen.py:26-27; the names
    given to click.command, and for the groups their functions' *)
Definition quantas_commands : list string := ["inpgen"; "export"; "ha"; "qha"; "soec"; "eosfit"].
Definition export_commands : list string := ["ha"; "qha"; "soec"].
Definition inpgen_commands : list string := ["ha"; "soec"].
