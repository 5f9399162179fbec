(** Model of quantas/IO/qha_reader.py on parsed YAML documents, and of the
    read_input methods using it. yaml.safe_load itself is not modelled: the
    reader receives its result, or a parser failure. *)
From Coq Require Import Reals String Ascii List Bool Arith.
From Verif Require Import Py DecimalModel.
Import ListNotations.
Open Scope string_scope.

(** Parsed documents (booleans, dates and other YAML scalars left out). *)
Inductive yaml := YNull | YInt (z : Z) | YNum (x : R) | YStr (s : string) | YList (l : list yaml) | YMap (m : list (string * yaml)).
Inductive parsed := Parsed (y : yaml) | YamlError (mark : option (string * string)) | NotText.

(** Python substring test *)
Fixpoint is_substring (w s : string) : bool :=
  (String.prefix w s || match s with EmptyString => false | String _ r => is_substring w r end)%bool.
(** 'key' in data: keys of a dictionary, elements of a list, substrings of a
    string; TypeError (None) for numbers *)
Definition contains (w : string) (y : yaml) : option bool :=
  match y with
  | YMap m => Some (existsb (fun p => String.eqb w (fst p)) m)
  | YList l => Some (existsb (fun e => match e with YStr s => String.eqb w s | _ => false end) l)
  | YStr s => Some (is_substring w s)
  | _ => None
  end.

(** The instance: _data is None until a document was loaded *)
Record reader := { contents : option yaml; completed : bool; error : option string }.
Inductive outcome (A : Type) := Ok (a : A) | Raises (exception : string).
Arguments Ok {A} a. Arguments Raises {A} exception.
Definition nl := String newline EmptyString.
(** qha_reader.py:53-67 *)
Definition after_parse (p : parsed) : reader :=
  match p with
  | Parsed YNull => {| contents := None; completed := false; error := None |}
  | Parsed y => {| contents := Some y; completed := false; error := None |}
  | YamlError (Some (mark, problem)) =>
      {| contents := None; completed := false;
         error := Some ("Error in parsing YAML file: " ++ nl ++ "  - " ++ mark ++ nl ++ "  - " ++ problem ++ nl
                        ++ nl ++ "Please, correct data and retry.") |}
  | YamlError None =>
      {| contents := None; completed := false;
         error := Some ("Error in parsing YAML file: unknown problem." ++ nl ++ nl ++ "Please, correct data and retry.") |}
  | NotText => {| contents := None; completed := false; error := Some "The provided input is not a YAML file." |}
  end.
(** qha_reader.py:71-84 *)
Definition sections : list (string * string) :=
  [("volume", "No volume values in input file"); ("energy", "No energy values in input file"); ("phonon", "No phonon data in input file")].
Fixpoint check_sections (y : yaml) (l : list (string * string)) (r : reader) : outcome reader :=
  match l with
  | [] => Ok {| contents := contents r; completed := true; error := error r |}
  | (w, msg) :: t => match contains w y with
                     | None => Raises "TypeError"
                     | Some true => check_sections y t r
                     | Some false => Ok {| contents := contents r; completed := completed r; error := Some msg |}
                     end
  end.
(** qha_reader.py:43-69 *)
Definition load (p : parsed) : outcome reader :=
  let r := after_parse p in
  match contents r with None => Ok r | Some y => check_sections y sections r end.

(** ** Values *)
Fixpoint get (w : string) (y : yaml) : outcome yaml :=
  match y with
  | YMap m => match find (fun p => String.eqb w (fst p)) m with Some (_, v) => Ok v | None => Raises "KeyError" end
  | _ => Raises "TypeError"
  end.
(** Results of np.float64: a number or a one-dimensional array *)
Inductive num := Scalar (x : fl) | Array (l : list fl).
Definition element (y : yaml) : option fl :=
  match y with YInt z => Some (Num (IZR z)) | YNum x => Some (Num x) | YStr s => parse_float (strip s) | _ => None end.
Fixpoint all_some {A} (l : list (option A)) : option (list A) :=
  match l with
  | [] => Some []
  | Some x :: r => match all_some r with Some xs => Some (x :: xs) | None => None end
  | None :: _ => None
  end.
Definition words (s : string) : outcome num :=
  match all_some (List.map parse_float (split s)) with Some xs => Ok (Array xs) | None => Raises "ValueError" end.
(** qha_reader.py:86-91. Nested lists, null and maps are outside the model
    (Raises "unmodelled"). *)
Definition get_float (y : yaml) : outcome num :=
  match y with
  | YInt z => Ok (Scalar (Num (IZR z)))
  | YNum x => Ok (Scalar (Num x))
  | YStr s => match parse_float (strip s) with
              | Some x => Ok (Scalar x)
              | None => match s with String a _ => words (String a EmptyString) | EmptyString => Raises "IndexError" end
              end
  | YList l => match all_some (List.map element l) with
               | Some xs => Ok (Array xs)
               | None => match l with
                         | YStr s :: _ => words s
                         | (YInt _ | YNum _) :: _ => Raises "TypeError"
                         | _ => Raises "unmodelled"
                         end
               end
  | YNull | YMap _ => Raises "unmodelled"
  end.
Definition bind {A B} (x : outcome A) (f : A -> outcome B) : outcome B := match x with Ok a => f a | Raises e => Raises e end.
Notation "'let?' x := a 'in' b" := (bind a (fun x => b)) (at level 200, x name).
(** _get_int on a YAML integer (the only form the documentation uses; others
    outside the model) *)
Definition get_int (y : yaml) : outcome nat :=
  match y with YInt z => if (z <? 0)%Z then Raises "ValueError" else Ok (Z.to_nat z) | _ => Raises "unmodelled" end.

Section Document.
Variable y : yaml.
(** qha_reader.py:108-113 *)
Definition jobname : outcome string :=
  match get "job" y with Ok (YStr s) => Ok (rstrip s) | Ok _ => Raises "AttributeError" | Raises _ => Ok "Unknown" end.
(** :115-117, 123-125 *)
Definition natoms : outcome nat := let? n := get "natom" y in get_int n.
Definition qpoints : outcome nat := let? n := get "qpoints" y in get_int n.
(** :135-141 *)
Definition volume : outcome num := let? v := get "volume" y in get_float v.
Definition energy : outcome num := let? v := get "energy" y in get_float v.
(** :127-133 *)
Definition nvol : outcome nat := let? v := volume in Ok (match v with Array l => List.length l | Scalar _ => 1%nat end).

Definition array3 := nat -> nat -> nat -> fl.
(** matrix[i][j] = value: one number is spread over the row, an array must
    have the length of the row (or one element, spread as well) *)
Definition assign (nq nm nv : nat) (m : array3) (i j : nat) (v : num) : outcome array3 :=
  if ((nq <=? i) || (nm <=? j))%nat then Raises "IndexError" else
  match v with
  | Scalar x => Ok (fun a b c => if ((a =? i) && (b =? j))%nat then x else m a b c)
  | Array l =>
      if (List.length l =? nv)%nat then Ok (fun a b c => if ((a =? i) && (b =? j))%nat then nth c l NaN else m a b c)
      else match l with
           | [x] => Ok (fun a b c => if ((a =? i) && (b =? j))%nat then x else m a b c)
           | _ => Raises "ValueError"
           end
  end.
Definition elements (y : yaml) : outcome (list yaml) := match y with YList l => Ok l | _ => Raises "TypeError" end.
(** :147-152 inner loop *)
Fixpoint bands (nq nm nv i j : nat) (bs : list yaml) (m : array3) : outcome array3 :=
  match bs with
  | [] => Ok m
  | b :: r => let? f := get "frequency" b in let? v := get_float f in let? m' := assign nq nm nv m i j v in
              bands nq nm nv i (S j) r m'
  end.
(** :146-152 outer loop *)
Fixpoint phonons (nq nm nv i : nat) (qs : list yaml) (m : array3) : outcome array3 :=
  match qs with
  | [] => Ok m
  | q :: r => let? b := get "band" q in let? bs := elements b in let? m' := bands nq nm nv i 0 bs m in
              phonons nq nm nv (S i) r m'
  end.
Definition zeros3 : array3 := fun _ _ _ => Num 0.
(** :143-153 *)
Definition frequencies : outcome array3 :=
  let? nq := qpoints in let? na := natoms in let? nv := nvol in
  let? p := get "phonon" y in let? qs := elements p in
  phonons nq (na * 3) nv 0 qs zeros3.
(** :155-160 (an array weight outside the model) *)
Fixpoint fill_weights (nq i : nat) (qs : list yaml) (w : nat -> fl) : outcome (nat -> fl) :=
  match qs with
  | [] => Ok w
  | q :: r => let? x := get "weight" q in let? v := get_float x in
              if (nq <=? i)%nat then Raises "IndexError" else
              match v with
              | Scalar x => fill_weights nq (S i) r (fun a => if (a =? i)%nat then x else w a)
              | Array [x] => fill_weights nq (S i) r (fun a => if (a =? i)%nat then x else w a)
              | Array _ => Raises "ValueError"
              end
  end.
Definition weights : outcome (nat -> fl) :=
  let? nq := qpoints in let? p := get "phonon" y in let? qs := elements p in fill_weights nq 0 qs (fun _ => Num 0).
(** :162-164 *)
Definition total_q_points : outcome fl :=
  let? nq := qpoints in let? w := weights in Ok (fold_left fadd (List.map w (seq 0 nq)) (Num 0)).
End Document.

(** ** Calculators *)
Definition E_volumes := "Insufficient number of volumes for QHA, at least 4 points are required".
(** The value returned (None: no error) and the input attribute afterwards
    (None: the class default). *)
(** qha.py:332-344 *)
Definition qha_read_input (p : parsed) : outcome (option string * option reader) :=
  let? r := load p in
  if negb (completed r) then Ok (error r, None) else
  match contents r with
  | None => Raises "TypeError"
  | Some y => let? v := volume y in
              match v with
              | Scalar _ => Raises "TypeError"
              | Array l => if (List.length l <? 4)%nat then Ok (Some E_volumes, None) else Ok (None, Some r)
              end
  end.
(** harmonic.py:149-156 *)
Definition ha_read_input (p : parsed) : outcome (option string * option reader) :=
  let? r := load p in
  if negb (completed r) then Ok (error r, None) else Ok (None, Some r).
