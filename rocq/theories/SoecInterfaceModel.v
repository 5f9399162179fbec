(** Model of quantas/interfaces/vasp.py and of CrystalSOECReader
    (quantas/interfaces/crystal.py:1419-1596). A file is its list of lines.
    Both readers keep their numbers in a dictionary of the class, so the state
    passed to [load] is what the previous reader of the process left. *)
From Coq Require Import Reals String Ascii List Bool Arith.
From Verif Require Import Py DecimalModel.
Import ListNotations.
Open Scope string_scope.
Open Scope list_scope.
Open Scope nat_scope.

(** Python `sub in s` *)
Fixpoint starts (sub s : string) : bool :=
  match sub, s with
  | EmptyString, _ => true
  | String a r, String b t => if Ascii.eqb a b then starts r t else false
  | _, EmptyString => false
  end.
Fixpoint contains (sub s : string) : bool :=
  if starts sub s then true else match s with EmptyString => false | String _ t => contains sub t end.

Definition flmat := nat -> nat -> fl.
Definition put (m : flmat) (i j : nat) (v : fl) : flmat := fun a b => if ((a =? i) && (b =? j))%bool then v else m a b.
(** completed; self.error set; or an exception that leaves [load] *)
Inductive status := Completed | Error (i j : nat) | NotOutput | NotCompleted | Crash (e : string).
(** What reading one number gives: a value, ValueError, or IndexError *)
Inductive cell := Value (v : fl) | BadNumber | Missing.
(** for i: for j: try: m[i, j] = float(...) except ValueError: error; return *)
Fixpoint fill (l : list (nat * nat)) (f : nat -> nat -> cell) (m : flmat) : flmat * option status :=
  match l with
  | [] => (m, None)
  | (i, j) :: r =>
      match f i j with
      | Value v => fill r f (put m i j v)
      | BadNumber => (m, Some (Error i j))
      | Missing => (m, Some (Crash "IndexError"))
      end
  end.
Definition number (t : option string) : cell :=
  match t with
  | None => Missing
  | Some s => match parse_float s with Some v => Value v | None => BadNumber end
  end.

(** ** VASP *)
Definition soec_clamped := "SYMMETRIZED ELASTIC MODULI (kBar)".
Definition soec_relaxed := "TOTAL ELASTIC MODULI (kBar)".
(** vasp.py:79-101 *)
Definition is_vasp_output (file : list string) : bool := existsb (contains soec_clamped) file.
(** vasp.py:125-141: (counter, clamped_line, relaxed_line); `relaxed` is whether
    relaxed_line is bound *)
Definition scan (s : nat * option nat * option nat) (line : string) : nat * option nat * option nat :=
  let '(counter, clamped, relaxed) := s in
  let clamped := if contains soec_clamped line then Some (counter + 3) else clamped in
  if contains soec_relaxed line then (counter, clamped, Some (counter + 3)) else (counter + 1, clamped, relaxed).
Definition vasp_start_line (file : list string) : option nat :=
  let '(_, clamped, relaxed) := fold_left scan file (0, None, None) in
  match relaxed with Some r => Some r | None => clamped end.
(** float(x) / 10. *)
Definition tenth (v : fl) : fl := match v with Num x => Num (x / 10) | NaN => NaN end.
Definition vasp_cell (file : list string) (sline i j : nat) : cell :=
  match nth_error file (i + sline) with
  | None => Missing
  | Some line => match number (nth_error (split line) (j + 1)) with Value v => Value (tenth v) | c => c end
  end.
(** A[[3, 5]] = A[[5, 3]] and the same for columns (vasp.py:58-59) *)
Definition exch (p : nat) : nat := if p =? 3 then 5 else if p =? 5 then 3 else p.
Definition exchange (m : flmat) : flmat :=
  let rows := fun i j => m (exch i) j in fun i j => rows i (exch j).
Definition full : list (nat * nat) := flat_map (fun i => map (fun j => (i, j)) (seq 0 6)) (seq 0 6).
(** vasp.py:34-63 *)
Definition vasp_load (file : list string) (m : flmat) : flmat * status :=
  if negb (is_vasp_output file) then (m, NotOutput)
  else match vasp_start_line file with
       | None => (m, Crash "UnboundLocalError")
       | Some sline =>
           match fill full (vasp_cell file sline) m with
           | (m', Some st) => (m', st)
           | (m', None) => (exchange m', Completed)
           end
       end.

(** ** CRYSTAL *)
Definition soec_option := "ELASTCON OPTION".
Definition soec_completed := "FINAL RESULTS START".
Definition soec_ec := "SYMMETRIZED ELASTIC CONSTANTS".
Definition geometry_consistent := "GEOMETRY NOW FULLY CONSISTENT WITH THE GROUP".
Definition primitive_cell := "PRIMITIVE CELL - ".
(** crystal.py:1536-1563 *)
Fixpoint crystal_start_line (file : list string) : nat :=
  match file with
  | [] => 0
  | line :: r => if contains soec_ec line then 2 else S (crystal_start_line r)
  end.
(** str.replace('|', '') *)
Fixpoint no_bars (s : string) : string :=
  match s with EmptyString => EmptyString | String a r => if Ascii.eqb a "|" then no_bars r else String a (no_bars r) end.
Definition crystal_cell (file : list string) (sline i c : nat) : cell :=
  match nth_error file (i + sline) with
  | None => Missing
  | Some line => number (nth_error (split (no_bars line)) (c - i))
  end.
Definition upper : list (nat * nat) := flat_map (fun i => map (fun j => (i, j + i)) (seq 0 (6 - i))) (seq 0 6).
(** m += np.triu(m, 1).T *)
Definition mirror (m : flmat) : flmat := fun i j => fadd (m i j) (if j <? i then m j i else Num 0).
(** crystal.py:1565-1596; the two exceptions float() and [-2] can raise *)
Definition last_but_one (l : list string) : option string := nth_error (rev l) 1.
Fixpoint crystal_density_from (consistent : bool) (file : list string) : fl + string :=
  match file with
  | [] => inl (Num 0)
  | line :: r =>
      let consistent := (consistent || contains geometry_consistent line)%bool in
      if (contains primitive_cell line && consistent)%bool then
        match number (last_but_one (split line)) with
        | Value v => inl (fmul v (Num 1000))
        | BadNumber => inr "ValueError"
        | Missing => inr "IndexError"
        end
      else crystal_density_from consistent r
  end.
Definition crystal_density := crystal_density_from false.
Record crystal_class := { c_stiffness : flmat; c_density : fl }.
Definition crystal_new : crystal_class := {| c_stiffness := fun _ _ => Num 0; c_density := Num 0 |}.
(** crystal.py:1434-1468 *)
Definition crystal_load (file : list string) (c : crystal_class) : crystal_class * status :=
  if negb (existsb (contains soec_option) file) then (c, NotOutput)
  else if negb (existsb (contains soec_completed) file) then (c, NotCompleted)
  else match crystal_density file with
       | inr e => (c, Crash e)
       | inl d =>
           match fill upper (crystal_cell file (crystal_start_line file)) (c_stiffness c) with
           | (m, Some st) => ({| c_stiffness := m; c_density := d |}, st)
           | (m, None) => ({| c_stiffness := mirror m; c_density := d |}, Completed)
           end
       end.
(** the class after constructing one reader per file *)
Definition crystal_readers (files : list (list string)) (c : crystal_class) : crystal_class :=
  fold_left (fun c f => fst (crystal_load f c)) files c.
Definition vasp_readers (files : list (list string)) (m : flmat) : flmat := fold_left (fun m f => fst (vasp_load f m)) files m.
