(** Model of quantas/soec/utils/symmetry.py: label tables and check_symmetry.
    A 6x6 matrix is a function of two indices 0..5. *)
From Coq Require Import Reals ZArith List Bool Arith.
From Verif Require Import StatMechModel.
Import ListNotations.
Open Scope R_scope.

Definition mat6 := nat -> nat -> R.
Inductive system := Cubic | Hexagonal | TrigonalHigh | TrigonalLow | TetragonalHigh
                  | TetragonalLow | Orthorhombic | Monoclinic | Triclinic.
(** Dictionary order of Cij_symmetry (symmetry.py:13-77). *)
Definition systems : list system :=
  [Cubic; Hexagonal; TrigonalHigh; TrigonalLow; TetragonalHigh; TetragonalLow; Orthorhombic; Monoclinic; Triclinic].
(** symmetry.py:14-76, row by row. *)
Definition table (s : system) : list (list Z) :=
  (match s with
  | Cubic => [[1; 7; 7; 0; 0; 0]; [7; 1; 7; 0; 0; 0]; [7; 7; 1; 0; 0; 0];
              [0; 0; 0; 4; 0; 0]; [0; 0; 0; 0; 4; 0]; [0; 0; 0; 0; 0; 4]]
  | Hexagonal => [[1; 7; 8; 9; 10; 0]; [7; 1; 8; 0; -9; 0]; [8; 8; 3; 0; 0; 0];
                  [9; -9; 0; 4; 0; 0]; [10; 0; 0; 0; 4; 0]; [0; 0; 0; 0; 0; 6]]
  | TrigonalHigh => [[1; 7; 8; 9; 10; 0]; [7; 1; 8; 0; -9; 0]; [8; 8; 3; 0; 0; 0];
                     [9; -9; 0; 4; 0; 0]; [10; 0; 0; 0; 4; 0]; [0; 0; 0; 0; 0; 6]]
  | TrigonalLow => [[1; 7; 8; 9; 10; 0]; [7; 1; 8; -9; -10; 0]; [8; 8; 3; 0; 0; 0];
                    [9; -9; 0; 4; 0; -10]; [10; -10; 0; 0; 4; 9]; [0; 0; 0; -10; 9; 6]]
  | TetragonalHigh => [[1; 7; 8; 0; 0; 0]; [7; 1; 8; 0; 0; 0]; [8; 8; 3; 0; 0; 0];
                       [0; 0; 0; 4; 0; 0]; [0; 0; 0; 0; 4; 0]; [0; 0; 0; 0; 0; 6]]
  | TetragonalLow => [[1; 7; 8; 0; 0; 11]; [7; 1; 8; 0; 0; -11]; [8; 8; 3; 0; 0; 0];
                      [0; 0; 0; 4; 0; 0]; [0; 0; 0; 0; 4; 0]; [11; -11; 0; 0; 0; 6]]
  | Orthorhombic => [[1; 7; 8; 0; 0; 0]; [7; 2; 12; 0; 0; 0]; [8; 12; 3; 0; 0; 0];
                     [0; 0; 0; 4; 0; 0]; [0; 0; 0; 0; 5; 0]; [0; 0; 0; 0; 0; 6]]
  | Monoclinic => [[1; 7; 8; 0; 10; 0]; [7; 2; 12; 0; 14; 0]; [8; 12; 3; 0; 17; 0];
                   [0; 0; 0; 4; 0; 20]; [10; 14; 17; 0; 5; 0]; [0; 0; 0; 20; 0; 6]]
  | Triclinic => [[1; 7; 8; 9; 10; 11]; [7; 2; 12; 13; 14; 15]; [8; 12; 3; 16; 17; 18];
                  [9; 13; 16; 4; 19; 20]; [10; 14; 17; 19; 5; 21]; [11; 15; 18; 20; 21; 6]]
  end)%Z.
Definition entry (s : system) (i j : nat) : Z := nth j (nth i (table s) []) 99%Z.

(** symmetry.py:106-114: only the upper triangle is read, the lower one mirrors
    it. The dictionary is an association list in insertion order. *)
Definition upper : list (nat * nat) :=
  flat_map (fun i => map (fun j => (i, j)) (seq i (6 - i))) (seq 0 6).
Definition cij_map (s : system) : list ((nat * nat) * Z) :=
  map (fun k => (k, entry s (fst k) (snd k))) upper ++
  flat_map (fun k => if (fst k =? snd k)%nat then [] else [((snd k, fst k), entry s (fst k) (snd k))]) upper.
(** symmetry.py:118-123 *)
Definition keys_of (s : system) (label : Z) : list (nat * nat) :=
  map fst (filter (fun e => (snd e =? label)%Z) (cij_map s)).
(** itertools.combinations(l, 2) *)
Fixpoint pairs {A} (l : list A) : list (A * A) :=
  match l with [] => [] | a :: r => map (pair a) r ++ pairs r end.
Definition tol : R := 1 / 1000.
Definition small (x : R) : bool := Rle_b (Rabs x) tol.
Definition get (m : mat6) (k : nat * nat) : R := m (fst k) (snd k).
(** symmetry.py:117-136 for one label *)
Definition label_ok (m : mat6) (s : system) (label : Z) : bool :=
  if (label =? 0)%Z then forallb (fun k => small (get m k)) (keys_of s label)
  else forallb (fun p => small (get m (fst p) - get m (snd p))) (pairs (keys_of s label)).
Definition labels : list Z := map Z.of_nat (seq 0 22).
(** symmetry.py:103-141 *)
Definition run_check (m : mat6) (s : system) : bool :=
  forallb (label_ok m s) labels &&
  match s with
  | Hexagonal => small (m 5%nat 5%nat - (m 0%nat 0%nat - m 0%nat 1%nat) / 2)
  | _ => true
  end.
(** symmetry.py:79-100; None: the name is unbound (UnboundLocalError). *)
Definition check_symmetry (m : mat6) : option system := find (run_check m) systems.
