(** Model of quantas/IO/soec_reader.py and quantas/IO/soec_writer.py. *)
From Coq Require Import Reals String Ascii List Bool Arith ZArith NArith.
From Verif Require Import Py DecimalModel.
Import ListNotations.
Open Scope string_scope.

Definition fmat := nat -> nat -> fl.
(** soec_reader.py:34-38: the dictionary is a class attribute *)
Record data := { job : string; stiffness : option fmat; density : fl }.
Definition class_data : data := {| job := "Unknown"; stiffness := None; density := Num 0 |}.
Definition set_job d j := {| job := j; stiffness := stiffness d; density := density d |}.
Definition set_stiffness d m := {| job := job d; stiffness := Some m; density := density d |}.
Definition set_density d x := {| job := job d; stiffness := stiffness d; density := x |}.
(** completed, error, or an exception leaving the constructor *)
Inductive outcome := Completed | Failed (message : string) | Raised (exception : string).

Definition E_short := "File length is too short to contain the SOEC matrix".
Definition E_shape := "The SOEC matrix does not have the expected (6, 6) shape." ++ String newline "Please, check the input file and retry.".
Definition E_float := "SOEC components should be float numbers".
Definition E_sym := "The SOEC matrix should be symmetric or triangular".
Definition E_density := "Density value should be a float number".

(** soec_reader.py:126-131, one row: matrix[i][j+(6-n)] = line[j], Python index
    arithmetic (negative indices count from the end). *)
Definition py_index (z : Z) : option nat :=
  if (0 <=? z)%Z then (if (z <? 6)%Z then Some (Z.to_nat z) else None)
  else if (-6 <=? z)%Z then Some (Z.to_nat (z + 6)) else None.
Inductive res (A : Type) := Ok (a : A) | ValueError | IndexError.
Arguments Ok {A} a. Arguments ValueError {A}. Arguments IndexError {A}.
Fixpoint store (row : nat -> fl) (j n : nat) (toks : list string) : res (nat -> fl) :=
  match toks with
  | [] => Ok row
  | t :: r =>
      match py_index (Z.of_nat j + (6 - Z.of_nat n)) with
      | None => IndexError
      | Some c => match parse_float t with
                  | None => ValueError
                  | Some x => store (fun k => if (k =? c)%nat then x else row k) (S j) n r
                  end
      end
  end.
Definition read_row (line : string) : res (nat -> fl) :=
  let toks := split line in store (fun _ => Num 0) 0 (List.length toks) toks.
Fixpoint read_rows (lines : list string) : res (list (nat -> fl)) :=
  match lines with
  | [] => Ok []
  | l :: r => match read_row l with
              | Ok x => match read_rows r with Ok xs => Ok (x :: xs) | ValueError => ValueError | IndexError => IndexError end
              | ValueError => ValueError | IndexError => IndexError
              end
  end.
Definition to_mat (rows : list (nat -> fl)) : fmat := fun i j => nth i rows (fun _ => Num 0) j.
(** np.triu(m, 1), np.tril(m, 1), transpose, sum *)
Definition triu1 (m : fmat) : fmat := fun i j => if (i + 1 <=? j)%nat then m i j else Num 0.
Definition tril1 (m : fmat) : fmat := fun i j => if (j <=? i + 1)%nat then m i j else Num 0.
Definition transpose (m : fmat) : fmat := fun i j => m j i.
Definition madd (a b : fmat) : fmat := fun i j => fadd (a i j) (b i j).
(** linalg.norm(m - m.T) squared *)
Definition six := seq 0 6.
Definition asymmetry2 (m : fmat) : fl :=
  fold_right fadd (Num 0)
    (flat_map (fun i => List.map (fun j => let d := fsub (m i j) (m j i) in fmul d d) six) six).
(** norm > 1e-3, false of NaN *)
Definition refused (m : fmat) : bool :=
  match asymmetry2 m with Num s => if Rlt_dec 1e-3 (sqrt s) then true else false | NaN => false end.
(** soec_reader.py:136-144 *)
Definition eq_form (a b : list nat) : bool := if list_eq_dec Nat.eq_dec a b then true else false.
Definition complete (form : list nat) (m : fmat) : fmat :=
  let m := if eq_form form [6; 5; 4; 3; 2; 1]%nat then madd m (transpose (triu1 m)) else m in
  if eq_form form [1; 2; 3; 4; 5; 6]%nat then madd m (transpose (tril1 m)) else m.

(** soec_reader.py:90-167, on the lines of the file *)
Definition load (lines : list string) (d : data) : data * outcome :=
  if (List.length lines <? 6)%nat then (d, Failed E_short) else
  match strip (nth 0 lines EmptyString) with
  | EmptyString => (d, Raised "IndexError")
  | String a _ =>
      let start := if is_digit a then 0%nat else 1%nat in
      let d := if is_digit a then d else set_job d (rstrip (nth 0 lines EmptyString)) in
      if (List.length lines <? start + 6)%nat then (d, Failed E_shape) else
      let matstr := firstn 6 (skipn start lines) in
      match read_rows matstr with
      | IndexError => (d, Raised "IndexError")
      | ValueError => (d, Failed E_float)
      | Ok rows =>
          let m := complete (List.map (fun l => List.length (split l)) matstr) (to_mat rows) in
          if refused m then (d, Failed E_sym) else
          let d := set_stiffness d m in
          match nth_error lines (start + 6) with
          | None => (d, Completed)
          | Some l => match split l with
                      | [] => (d, Completed)
                      | t :: _ => match parse_float t with
                                  | None => (d, Failed E_density)
                                  | Some x => (set_density d x, Completed)
                                  end
                      end
          end
      end
  end.
(** SOECInputFileReader(path): the class data after constructing readers on a
    sequence of files; every instance reads its properties from it. *)
Fixpoint readers (files : list (list string)) (d : data) : data :=
  match files with [] => d | f :: r => readers r (fst (load f d)) end.

(** ** Writer *)
Section Writer.
(** Correct rounding of |x|*10^k to an integer by the C library, any tie rule. *)
Variable round_abs : nat -> R -> N.
Definition negative (x : R) : bool := if Rlt_dec x 0 then true else false.
(** '{: > 11.4f} ' *)
Definition cell (x : R) : string :=
  pad_left 11 (String (if negative x then "-" else " ") (print_fixed 4 (round_abs 4 x))) ++ " ".
(** '{:9.1f}' *)
Definition density_text (x : R) : string :=
  pad_left 9 ((if negative x then "-" else "") ++ print_fixed 1 (round_abs 1 x)).
(** soec_writer.py:56-83: the text written *)
Definition write (jobname : string) (m : nat -> nat -> R) (rho : R) : string :=
  join_lines ([jobname] ++ List.map (fun i => String.concat "" (List.map (fun j => cell (m i j)) six)) six
              ++ [density_text rho]).
End Writer.
