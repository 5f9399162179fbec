(** What similar names are and what the message shows, for C85. *)
From Coq Require Import String Ascii List.
Import ListNotations.
Open Scope string_scope.
Open Scope list_scope.
Open Scope nat_scope.

(** u is l with some elements left out. *)
Inductive subseq {A} : list A -> list A -> Prop :=
| sub_nil l : subseq [] l
| sub_skip x u l : subseq u l -> subseq u (x :: l)
| sub_take x u l : subseq u l -> subseq (x :: u) (x :: l).
Definition chars (s : string) : list ascii := list_ascii_of_string s.
(** Characters common to both, in the same order, make up half of the two words. *)
Definition similar (x y : string) : Prop :=
  exists w, subseq w (chars x) /\ subseq w (chars y) /\ String.length x + String.length y <= 4 * List.length w.
(** One piece of both makes up half of them. *)
Definition shares_piece (x y : string) : Prop :=
  exists u a b c d, chars x = a ++ u ++ b /\ chars y = c ++ u ++ d /\ String.length x + String.length y <= 4 * List.length u.
Definition begins (typed name : string) : Prop := exists r, name = String.append typed r.
Inductive one_edit : list ascii -> list ascii -> Prop :=
| inserted u c v : one_edit (u ++ v) (u ++ c :: v)
| deleted u c v : one_edit (u ++ c :: v) (u ++ v)
| replaced u c d v : one_edit (u ++ c :: v) (u ++ d :: v)
| exchanged u c d v : one_edit (u ++ c :: d :: v) (u ++ d :: c :: v).

(** Names, each on a line of its own behind a tabulator. *)
Definition newline_ : string := String "010"%char "".
Definition message (typed : string) (listed : list string) : string :=
  String.concat "" ["'"; typed; "' is not a Quantas command."; newline_; newline_;
    match listed with
    | [] => "No similar commands found."
    | _ => String.concat newline_ ("The most similar commands are: " :: map (String "009"%char) listed)
    end].
