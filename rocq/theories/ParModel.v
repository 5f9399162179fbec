(** Cython [prange] loops over the rows of a result matrix.
    Each iteration is a thread executing array operations; [m[r,c] += v] is a
    load into a private register followed by a store, and the threads may be
    interleaved arbitrarily (statistical_mechanics.pyx:82-87 and similar;
    thermodynamics.pyx:53-55 and similar). Every iteration is its own thread:
    this covers all static/dynamic OpenMP schedules, which only run several
    iterations on one thread in order. *)
From Coq Require Import List Arith Bool.
Import ListNotations.

Section Par.
Variable A : Type.
Variable add : A -> A -> A.

Inductive op := AddTo (r c : nat) (v : A) | SetTo (r c : nat) (v : A).
Definition memory := nat -> nat -> A.
Definition write (m : memory) (r c : nat) (v : A) : memory :=
  fun r' c' => if (r' =? r) && (c' =? c) then v else m r' c'.

(** Ordinary sequential execution of a list of operations. *)
Fixpoint exec (l : list op) (m : memory) : memory :=
  match l with
  | [] => m
  | AddTo r c v :: t => exec t (write m r c (add (m r c) v))
  | SetTo r c v :: t => exec t (write m r c v)
  end.

Record thread := { todo : list op; reg : option A }.
Definition pool := nat -> thread.
Definition set_thread (p : pool) (i : nat) (t : thread) : pool :=
  fun i' => if i' =? i then t else p i'.

(** One micro-step of thread [i]. *)
Inductive step (i : nat) : memory * pool -> memory * pool -> Prop :=
| step_load m p r c v t :
    p i = {| todo := AddTo r c v :: t; reg := None |} ->
    step i (m, p) (m, set_thread p i {| todo := AddTo r c v :: t; reg := Some (m r c) |})
| step_store m p r c v t x :
    p i = {| todo := AddTo r c v :: t; reg := Some x |} ->
    step i (m, p) (write m r c (add x v), set_thread p i {| todo := t; reg := None |})
| step_set m p r c v t g :
    p i = {| todo := SetTo r c v :: t; reg := g |} ->
    step i (m, p) (write m r c v, set_thread p i {| todo := t; reg := None |}).

(** A complete execution of the threads [0 .. nt-1]. *)
Inductive run (nt : nat) : memory * pool -> memory -> Prop :=
| run_done m p : (forall i, i < nt -> todo (p i) = []) -> run nt (m, p) m
| run_step i s s' m : i < nt -> step i s s' -> run nt s' m -> run nt s m.

Definition start (prog : nat -> list op) : pool := fun i => {| todo := prog i; reg := None |}.
End Par.
Arguments AddTo {A}. Arguments SetTo {A}. Arguments write {A}. Arguments exec {A}.
Arguments run {A}. Arguments start {A}. Arguments step {A}. Arguments todo {A}. Arguments reg {A}.
Arguments set_thread {A}.
