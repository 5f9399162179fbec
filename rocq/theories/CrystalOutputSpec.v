(** What a CRYSTAL output with phonon frequencies prints, said about its lines:
    which words of which lines are the numbers. Independent of the reader. The
    titles searched for are those of /repo/quantas/interfaces/crystal.py:16-37. *)
From Coq Require Import Reals String Ascii List Bool Arith ZArith.
From Verif Require Import Py DecimalModel SoecInterfaceModel CrystalModel CrystalProps CrystalCellProps.
Import ListNotations.
Open Scope string_scope.
Open Scope list_scope.
Open Scope nat_scope.

(** The k-th word of line i, from the left or from the right, is the integer z. *)
Definition integer_at (data : list string) (i k : nat) (z : Z) : Prop :=
  exists l t, nth_error data i = Some l /\ nth_error (split l) k = Some t /\ parse_int t = Some z.
Definition integer_from_end (data : list string) (i k : nat) (z : Z) : Prop :=
  exists l t, nth_error data i = Some l /\ nth_error (rev (split l)) k = Some t /\ parse_int t = Some z.
(** n atoms, announced at the end of a line, listed from another. *)
Definition atoms_printed (data : list string) (announced first n : nat) : Prop :=
  integer_from_end data announced 0 (Z.of_nat n) /\
  forall a, a < n -> (exists z, integer_at data (first + a) 2 z) /\ forall j, j < 3 -> exists v, number_at data (first + a) (4 + j) v.
(** The cell of the wave function: atoms, then the first lattice printed after
    them. *)
Definition cell_printed (data : list string) (n : nat) (A : rmat) : Prop :=
  exists s k, first_line "GEOMETRY FOR WAVE FUNCTION - " data s /\ atoms_printed data (s + 8) (s + 11) n /\
    first_line "DIRECT LATTICE VECTORS CARTESIAN COMPONENTS" (skipn (s + 11 + n) data) k /\
    forall i, i < 3 -> row_at data (s + 11 + n + k + 2 + i) 0 (fun j => Num (A i j)).
Definition energy_printed (data : list string) (x : R) : Prop :=
  exists s, first_line "    CENTRAL POINT" data s /\ number_at data s 2 (Num x).
(** A table of frequencies: the modes 1 to 3n, each with its frequency. *)
Definition table_printed (data : list string) (i n : nat) (F : nat -> R) : Prop :=
  exists pre bl post, skipn (i + 2) data = pre ++ bl :: post /\ blank bl /\ numbered 1 pre (Z.of_nat (n * 3) + 1) /\
    forall l n1 n2 v m, In l pre -> says l n1 n2 v -> (n1 <= m <= n2)%Z -> v = Num (F (Z.to_nat (m - 1))).
(** The k-th table belongs to the k-th q point. *)
Definition tables_printed (data : list string) (nq n : nat) (F : nat -> nat -> R) : Prop :=
  nq <= List.length (header_lines data) /\
  forall k i, k < nq -> nth_error (header_lines data) k = Some i -> table_printed data i n (F k).
Definition frequencies_title := "EIGENVALUES (EIGV) OF THE MASS WEIGHTED HESSIAN MATRIX AND HARMONIC".

(** Frequencies of the unit cell at the zone centre. *)
Record gamma_output (data : list string) (n : nat) (A : rmat) (x : R) (F : nat -> R) : Prop := {
  g_kind : has frequencies_title data = true /\ has " * SUPERCELL OPTION" data = false;
  g_cell : cell_printed data n A;
  g_volume : rdet A <> 0%R;
  g_energy : energy_printed data x;
  g_bound : x <> 0%R;
  g_table : tables_printed data 1 n (fun _ => F) }.

(** Where the q points start: ten lines after the interpolation is announced,
    or after the last header of a mesh. *)
Definition last_with (s : string) (data : list string) (i : nat) : Prop :=
  (exists l, nth_error data i = Some l /\ contains s l = true) /\
  forall k l, i < k -> nth_error data k = Some l -> contains s l = false.
Definition mesh_starts (data : list string) (announced first : nat) : Prop :=
  (first_line "ACTIVATED INTERPOLATION OF THE HESSIAN UP TO" data announced /\ first = announced + 9) \/
  (has "ACTIVATED INTERPOLATION OF THE HESSIAN UP TO" data = false /\
   first_line "THAT PERMITS THE CALCULATION OF MODES AT" data announced /\ exists h, last_with "K       WEIGHT       COORD" data h /\ first = h + 1).
(** Coordinates in units of the mesh, weights, and the mesh itself. *)
Definition mesh_printed (data : list string) (nq : nat) (q : nat -> nat -> R) (w m : nat -> R) : Prop :=
  exists announced first, mesh_starts data announced first /\ integer_from_end data announced 3 (Z.of_nat nq) /\
    (forall i, i < nq -> number_at data (first + i) 2 (Num (w i)) /\ forall j, j < 3 -> number_at data (first + i) (3 + j) (Num (q i j))) /\
    forall j, j < 3 -> number_at data (first + nq) (6 + 3 * j) (Num (m j)).
(** Frequencies at a mesh of q points from a supercell: n atoms in the unit
    cell, the vectors A of the supercell, the expansion E, the energy x of the
    supercell. *)
Record dispersion_output (data : list string) (n nq : nat) (A E : rmat) (x : R) (q : nat -> nat -> R) (w m : nat -> R) (F : nat -> nat -> R) : Prop := {
  d_kind : has frequencies_title data = true /\ has " * SUPERCELL OPTION" data = true /\
           has "PHONON FREQUENCIES AT A SET OF K POINTS BY USING A SUPERCELL" data = true;
  d_cell : exists ns, cell_printed data ns A;
  d_volume : rdet A <> 0%R;
  d_unit : exists s, first_line "GEOMETRY NOW FULLY CONSISTENT WITH THE GROUP" data s /\ atoms_printed data (s + 7) (s + 10) n;
  d_expansion : exists s, first_line "EXPANSION MATRIX OF PRIMITIVE CELL" data s /\ forall i, i < 3 -> row_at data (s + 1 + i) 1 (fun j => Num (E i j));
  d_integral : integral E;
  d_regular : rdet E <> 0%R;
  d_mesh : mesh_printed data nq q w m;
  d_points : 0 < nq;
  d_energy : energy_printed data x;
  d_bound : x <> 0%R;
  d_tables : tables_printed data nq n F }.
