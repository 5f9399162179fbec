(** Model of CrystalPhononReader and CrystalQHAReader
    (quantas/interfaces/crystal.py:44-1416). A file is its list of lines.
    Numbers are exact reals plus NaN; numpy arrays of fixed shape are functions
    of their indices. *)
From Coq Require Import Reals String Ascii List Bool Arith ZArith NArith.
From Verif Require Import Py DecimalModel SoecInterfaceModel.
Import ListNotations.
Open Scope string_scope.
Open Scope list_scope.
Open Scope nat_scope.

(** A value, an exception that leaves the method, or a loop that never ends. *)
Inductive res (A : Type) := Ok (a : A) | Raises (e : string) | Hangs.
Arguments Ok {A}. Arguments Raises {A}. Arguments Hangs {A}.
Definition bind {A B} (r : res A) (f : A -> res B) : res B :=
  match r with Ok a => f a | Raises e => Raises e | Hangs => Hangs end.
Notation "'let?' x := r 'in' e" := (bind r (fun x => e)) (at level 200, x name, right associativity).
(** [f(x) for x in l] *)
Fixpoint each {A B} (f : A -> res B) (l : list A) : res (list B) :=
  match l with
  | [] => Ok []
  | x :: r => let? y := f x in let? ys := each f r in Ok (y :: ys)
  end.

(** l[i] and l[-k] *)
Definition item {A} (l : list A) (i : nat) : res A :=
  match nth_error l i with Some x => Ok x | None => Raises "IndexError" end.
Definition item_end {A} (l : list A) (k : nat) : res A :=
  if k <=? List.length l then item l (List.length l - k) else Raises "IndexError".
(** int(s) for a string without white space (underscores between digits are
    refused here, simplification) *)
Definition parse_int (s : string) : option Z :=
  let (neg, s1) := take_sign s in
  match take_digits s1 with
  | (String _ _ as d, EmptyString) => Some (if neg then - Z.of_N (digits d) else Z.of_N (digits d))%Z
  | _ => None
  end.
Definition to_int (s : string) : res Z := match parse_int s with Some z => Ok z | None => Raises "ValueError" end.
Definition to_float (s : string) : res fl := match parse_float s with Some v => Ok v | None => Raises "ValueError" end.
(** s[:-1] *)
Fixpoint drop_last (s : string) : string :=
  match s with
  | EmptyString => EmptyString
  | String _ EmptyString => EmptyString
  | String a r => String a (drop_last r)
  end.

(** ** 3x3 arrays *)
Definition sum3 (f : nat -> fl) : fl := fadd (fadd (f 0) (f 1)) (f 2).
(** np.dot *)
Definition dot3 (a b : flmat) : flmat := fun i j => sum3 (fun k => fmul (a i k) (b k j)).
(** np.linalg.det, exact *)
Definition det3 (m : flmat) : fl :=
  fadd (fsub (fmul (m 0 0) (fsub (fmul (m 1 1) (m 2 2)) (fmul (m 1 2) (m 2 1))))
             (fmul (m 0 1) (fsub (fmul (m 1 0) (m 2 2)) (fmul (m 1 2) (m 2 0)))))
       (fmul (m 0 2) (fsub (fmul (m 1 0) (m 2 1)) (fmul (m 1 1) (m 2 0)))).
Definition fdiv := fop Rdiv.
(** Minor for entry (i, j): rows and columns taken cyclically, sign included. *)
Definition cof (m : flmat) (i j : nat) : fl :=
  let i1 := (i + 1) mod 3 in let i2 := (i + 2) mod 3 in
  let j1 := (j + 1) mod 3 in let j2 := (j + 2) mod 3 in
  fsub (fmul (m i1 j1) (m i2 j2)) (fmul (m i1 j2) (m i2 j1)).
(** np.linalg.inv, exact: LinAlgError for a singular matrix *)
Definition inv3 (m : flmat) : res flmat :=
  match det3 m with
  | Num d => if Req_EM_T d 0 then Raises "LinAlgError" else Ok (fun i j => fdiv (cof m j i) (Num d))
  | NaN => Ok (fun _ _ => NaN)
  end.
(** np.around(x, 0): the nearest integer, halves to the even one *)
Definition around (x : R) : Z :=
  let f := Int_part x in
  if Rlt_dec (x - IZR f) (1 / 2) then f
  else if Rlt_dec (1 / 2) (x - IZR f) then (f + 1)%Z
  else if Z.even f then f else (f + 1)%Z.
(** int(np.around(np.linalg.det(expansion), 0)): crystal.py:402-408, 1021-1027 *)
Definition kpoints (dim : flmat) : res Z :=
  match det3 dim with Num d => Ok (around d) | NaN => Raises "ValueError" end.
Definition identity3 : flmat := fun i j => if i =? j then Num 1 else Num 0.
Definition zeros3 : flmat := fun _ _ => Num 0.
(** a[i] = np.asarray(l, dtype=float) for a row of three: one number is broadcast *)
Definition row3 (l : list fl) : res (nat -> fl) :=
  match l with
  | [x] => Ok (fun _ => x)
  | [x; y; z] => Ok (fun j => nth j [x; y; z] NaN)
  | _ => Raises "ValueError"
  end.
Definition rows3 (r0 r1 r2 : nat -> fl) : flmat := fun i => match i with 0 => r0 | 1 => r1 | _ => r2 end.

(** ** Searching the text *)
Definition geometry_consistent := "GEOMETRY NOW FULLY CONSISTENT WITH THE GROUP".
Definition geometry_wf := "GEOMETRY FOR WAVE FUNCTION - ".
Definition supercell_option := " * SUPERCELL OPTION".
Definition supercell_expansion := "EXPANSION MATRIX OF PRIMITIVE CELL".
Definition lattice_vectors := "DIRECT LATTICE VECTORS CARTESIAN COMPONENTS".
Definition frequency_calculation := "EIGENVALUES (EIGV) OF THE MASS WEIGHTED HESSIAN MATRIX AND HARMONIC".
Definition scelphono_option := "PHONON FREQUENCIES AT A SET OF K POINTS BY USING A SUPERCELL".
Definition hess_interpolation := "ACTIVATED INTERPOLATION OF THE HESSIAN UP TO".
Definition scelphono_qpoints := "THAT PERMITS THE CALCULATION OF MODES AT".
Definition central_energy := "    CENTRAL POINT".
Definition frequency_header := "MODES         EIGV          FREQUENCIES     IRREP".
Definition q_header := "K       WEIGHT       COORD".
Definition qha_header := "QUASI-HARMONIC APPROXIMATION".
Definition qha_freq := "FREQUENCY #".
Definition qha_ev := "SORTING VOLUMES/ENERGIES".
Definition qha_opt := "FINAL OPTIMIZED GEOMETRY".
Definition qha_restart := "READING DATA FROM RESTART UNIT".

(** for line in f: if s in line: return True (crystal.py:127-251, 860-921) *)
Definition has (s : string) (file : list string) : bool := existsb (contains s) file.
(** _get_start_line of the phonon reader: crystal.py:759-772 *)
Fixpoint start_line (s : string) (file : list string) : option nat :=
  match file with
  | [] => None
  | l :: r => if contains s l then Some 0 else option_map S (start_line s r)
  end.
(** None + 7, data[None]: TypeError *)
Definition found {A} (o : option A) : res A := match o with Some a => Ok a | None => Raises "TypeError" end.
(** data[i].split() *)
Definition tokens (data : list string) (i : nat) : res (list string) := let? l := item data i in Ok (split l).

(** ** Cells *)
Record cell := { natom : nat; numbers : list Z; positions : list (list fl); lattice : flmat }.
(** natoms = int(...); np.zeros(natoms): a negative count is a ValueError *)
Definition count (s : string) : res nat :=
  let? z := to_int s in if (z <? 0)%Z then Raises "ValueError" else Ok (Z.to_nat z).
(** One atom: numbers[i] = int(atomline[2]); positions[i][j] = float(atomline[4+j]) *)
Definition atom (data : list string) (line : nat) : res (Z * list fl) :=
  let? t := tokens data line in
  let? n := (let? s := item t 2 in to_int s) in
  let? p := each (fun j => let? s := item t (4 + j) in to_float s) (seq 0 3) in
  Ok (n, p).
Definition atoms (data : list string) (from n : nat) : res (list (Z * list fl)) :=
  each (fun i => atom data (from + i)) (seq 0 n).
(** lattice[j] = np.asarray(data[i+2+j].split(), dtype=np.float64) *)
Definition lattice_row (data : list string) (line : nat) : res (nat -> fl) :=
  let? t := tokens data line in let? v := each to_float t in row3 v.
Definition lattice_at (data : list string) (i : nat) : res flmat :=
  let? r0 := lattice_row data (i + 2) in
  let? r1 := lattice_row data (i + 3) in
  let? r2 := lattice_row data (i + 4) in
  Ok (rows3 r0 r1 r2).
(** for i in range(from, len(data)): if lattice_vectors in data[i]: ...; break *)
Definition lattice_from (data : list string) (from : nat) : res flmat :=
  match start_line lattice_vectors (skipn from data) with
  | None => Ok zeros3
  | Some k => lattice_at data (from + k)
  end.
(** crystal.py:483-522: the lattice is left zero *)
Definition set_init_cell (data : list string) : res cell :=
  let? sline := found (start_line geometry_consistent data) in
  let? t := tokens data (sline + 7) in
  let? n := (let? s := item_end t 1 in count s) in
  let? a := atoms data (sline + 10) n in
  Ok {| natom := n; numbers := map fst a; positions := map snd a; lattice := zeros3 |}.
(** crystal.py:566-592, 1345-1367: the geometry printed from line [sline] *)
Definition cell_at (data : list string) (sline : nat) : res cell :=
  let? t := tokens data (sline + 8) in
  let? n := (let? s := item_end t 1 in count s) in
  let? a := atoms data (sline + 11) n in
  let? m := lattice_from data (sline + 11 + n) in
  Ok {| natom := n; numbers := map fst a; positions := map snd a; lattice := m |}.
(** crystal.py:524-592 *)
Definition set_wf_cell (data : list string) : res cell :=
  let? sline := found (start_line geometry_wf data) in cell_at data sline.
(** line = data[i].split(); del line[0]; expansion[i] = np.asarray(line, dtype=float) *)
Definition expansion_row (data : list string) (line : nat) : res (nat -> fl) :=
  let? t := tokens data line in
  match t with [] => Raises "IndexError" | _ :: t' => let? v := each to_float t' in row3 v end.
Definition expansion_at (data : list string) (sline : nat) : res flmat :=
  let? r0 := expansion_row data sline in
  let? r1 := expansion_row data (sline + 1) in
  let? r2 := expansion_row data (sline + 2) in
  Ok (rows3 r0 r1 r2).
(** crystal.py:594-627 *)
Definition set_expansion (data : list string) : res flmat :=
  let? sline := found (start_line supercell_expansion data) in expansion_at data (sline + 1).

(** ** The q mesh: crystal.py:629-693 *)
Record qmesh := { qpoints : nat; qcoords : list (list fl); qweights : list fl; shrink : list fl }.
(** the last line with the header, no break: 671-674 *)
Fixpoint last_line (s : string) (i : nat) (file : list string) (def : nat) : nat :=
  match file with
  | [] => def
  | l :: r => last_line s (S i) r (if contains s l then i + 1 else def)
  end.
Definition q_row (data : list string) (line : nat) : res (fl * list fl) :=
  let? t := tokens data line in
  let? w := (let? s := item t 2 in to_float s) in
  let? c := each (fun j => let? s := item t (j + 3) in to_float s) (seq 0 3) in
  Ok (w, c).
Definition set_q_mesh (data : list string) : res qmesh :=
  let h := start_line hess_interpolation data in
  let? sline := found (match h with Some i => Some i | None => start_line scelphono_qpoints data end) in
  let? t := tokens data sline in
  let? n := (let? s := item_end t 4 in count s) in
  let first := match h with Some i => i + 9 | None => last_line q_header 0 data sline end in
  let? q := each (fun i => q_row data (first + i)) (seq 0 n) in
  let? s := tokens data (first + n) in
  let? m := each (fun k => let? x := item s k in to_float x) [6; 9; 12] in
  Ok {| qpoints := n; qcoords := map snd q; qweights := map fst q; shrink := m |}.

(** crystal.py:695-715 *)
Definition set_energy (data : list string) : res fl :=
  let? sline := found (start_line central_energy data) in
  let? t := tokens data sline in let? s := item t 2 in to_float s.

(** ** The frequencies: crystal.py:717-757 *)
(** band[i] = v *)
Fixpoint store (band : list fl) (i : nat) (v : fl) : res (list fl) :=
  match band, i with
  | [], _ => Raises "IndexError"
  | _ :: r, 0 => Ok (v :: r)
  | x :: r, S j => let? r' := store r j v in Ok (x :: r')
  end.
(** for j in range(k): band[freq_counter] = float(line[3]); freq_counter += 1 *)
Fixpoint store_many (k : nat) (line : list string) (band : list fl) (freqs : nat) : res (list fl * nat) :=
  match k with
  | 0 => Ok (band, freqs)
  | S k' =>
      let? s := item line 3 in let? v := to_float s in
      let? band' := store band freqs v in store_many k' line band' (S freqs)
  end.
(** mode_n1 = int(line[0][:-1]); mode_n2 = int(line[1]); then the loop above *)
Definition mode_line (line : list string) (band : list fl) (freqs : nat) : res (list fl * nat) :=
  let? t0 := item line 0 in let? n1 := to_int (drop_last t0) in
  let? t1 := item line 1 in let? n2 := to_int t1 in
  store_many (Z.to_nat (n2 - n1 + 1)) line band freqs.
(** The while loop, one turn at a time: 738-751 *)
Record loop := { finished : bool; band : list fl; line_counter : nat; freq_counter : nat }.
Inductive turn := Running (s : loop) | Stopped (b : list fl) | Failed (e : string).
Definition turn_once (data : list string) (i nphonon : nat) (s : loop) : turn :=
  if (negb (finished s) || negb (freq_counter s =? nphonon))%bool then
    match tokens data (i + line_counter s + 2) with
    | Ok [] => Running {| finished := true; band := band s; line_counter := line_counter s; freq_counter := freq_counter s |}
    | Ok line =>
        match mode_line line (band s) (freq_counter s) with
        | Ok (b, f) => Running {| finished := finished s; band := b; line_counter := line_counter s + 1; freq_counter := f |}
        | Raises e => Failed e
        | Hangs => Failed "unreachable"
        end
    | Raises e => Failed e
    | Hangs => Failed "unreachable"
    end
  else Stopped (band s).
Fixpoint turns (n : nat) (data : list string) (i nphonon : nat) (t : turn) : turn :=
  match n, t with
  | 0, _ => t
  | S k, Running s => turns k data i nphonon (turn_once data i nphonon s)
  | _, _ => t
  end.
Definition loop_start (nphonon : nat) : loop :=
  {| finished := false; band := repeat (Num 0) nphonon; line_counter := 0; freq_counter := 0 |}.
(** The same loop by recursion on the lines below the header; that it is the
    same is [C57_loop] below. *)
Fixpoint read_lines (rest : list string) (nphonon : nat) (band : list fl) (freqs : nat) : res (list fl) :=
  match rest with
  | [] => Raises "IndexError"
  | l :: r =>
      match split l with
      | [] => if freqs =? nphonon then Ok band else Hangs
      | line => match mode_line line band freqs with
                | Ok (b, f) => read_lines r nphonon b f
                | Raises e => Raises e
                | Hangs => Hangs
                end
      end
  end.
Definition read_band (data : list string) (i nphonon : nat) : res (list fl) :=
  read_lines (skipn (i + 2) data) nphonon (repeat (Num 0) nphonon) 0.
(** for i in range(len(data)): if header in data[i]: ...; if band_counter == qpoints: break *)
Fixpoint set_phonons_from (i : nat) (rest data : list string) (nphonon q counter : nat) : res (list (list fl)) :=
  match rest with
  | [] => Ok []
  | l :: r =>
      if contains frequency_header l then
        let? b := read_band data i nphonon in
        if counter + 1 =? q then Ok [b]
        else let? bs := set_phonons_from (S i) r data nphonon q (counter + 1) in Ok (b :: bs)
      else set_phonons_from (S i) r data nphonon q counter
  end.
Definition set_phonons (data : list string) (nphonon q : nat) : res (list (list fl)) :=
  set_phonons_from 0 data data nphonon q 0.

(** ** CrystalPhononReader.load: crystal.py:64-116. Its data are the instance's own. *)
Record phonon_data := {
  supercell_on : bool; scelphono_on : bool; unitcell : cell; supercell : cell; dim : flmat;
  mesh : qmesh; raw_energy : fl; phonons : list (list fl) }.
(** crystal.py:276-366 *)
Definition reported_cell (d : phonon_data) : cell :=
  if supercell_on d then if scelphono_on d then unitcell d else supercell d else unitcell d.
Definition reported_natom (d : phonon_data) : nat := natom (reported_cell d).
Definition reported_volume (d : phonon_data) : fl := det3 (lattice (reported_cell d)).
Definition nphonon (d : phonon_data) : nat := natom (reported_cell d) * 3.
(** energy / kpoints: a Python float by a Python int *)
Definition reported_energy (d : phonon_data) : res fl :=
  if (supercell_on d && negb (scelphono_on d))%bool then Ok (raw_energy d)
  else let? k := kpoints (dim d) in
       if (k =? 0)%Z then Raises "ZeroDivisionError" else Ok (fdiv (raw_energy d) (Num (IZR k))).
Definition is_zero (v : fl) : bool := match v with Num x => if Req_EM_T x 0 then true else false | NaN => false end.
(** np.any(lattice) *)
Definition any3 (m : flmat) : bool :=
  negb (forallb (fun i => forallb (fun j => is_zero (m i j)) (seq 0 3)) (seq 0 3)).
Inductive verdict := Completed | NotFrequencies | NoEnergy | NoLattice | NoPhonons.
(** crystal.py:118-131 *)
Definition check (d : phonon_data) : res verdict :=
  let? e := reported_energy d in
  if is_zero e then Ok NoEnergy
  else if negb (any3 (lattice (reported_cell d))) then Ok NoLattice
  else match phonons d with [] => Ok NoPhonons | _ => Ok Completed end.
Definition geometry (data : list string) : res (cell * cell * flmat * qmesh) :=
  if has supercell_option data then
    let? s := set_wf_cell data in
    let? u := set_init_cell data in
    let? e := set_expansion data in
    let? ie := inv3 e in
    let? q := set_q_mesh data in
    Ok ({| natom := natom u; numbers := numbers u; positions := positions u; lattice := dot3 (lattice s) ie |}, s, e, q)
  else
    let? u := set_wf_cell data in
    Ok (u, u, identity3, {| qpoints := 1; qcoords := [[Num 0; Num 0; Num 0]]; qweights := [Num 1]; shrink := [Num 1; Num 1; Num 1] |}).
(** the data, unless the file is refused at once, and the verdict *)
Definition phonon_load (data : list string) : res (option phonon_data * verdict) :=
  if negb (has frequency_calculation data) then Ok (None, NotFrequencies)
  else
    let? g := geometry data in
    let '(u, s, e, q) := g in
    let? en := set_energy data in
    let partial := {| supercell_on := has supercell_option data; scelphono_on := has scelphono_option data;
                      unitcell := u; supercell := s; dim := e; mesh := q; raw_energy := en; phonons := [] |} in
    let? p := set_phonons data (nphonon partial) (qpoints q) in
    let d := {| supercell_on := supercell_on partial; scelphono_on := scelphono_on partial; unitcell := u; supercell := s;
                dim := e; mesh := q; raw_energy := en; phonons := p |} in
    let? v := check d in Ok (Some d, v).

(** ** CrystalQHAReader: crystal.py:775-1416 *)
(** _get_start_line of this class: the number of lines when not found (1407-1416) *)
Definition start_line_or_end (s : string) (file : list string) : nat :=
  match start_line s file with Some i => i | None => List.length file end.
(** crystal.py:1122-1153 *)
Fixpoint count_pairs (fuel : nat) (data : list string) (i : nat) : res nat :=
  match fuel with
  | 0 => Ok 0
  | S f => let? t := tokens data i in
           if List.length t =? 2 then let? n := count_pairs f data (S i) in Ok (S n) else Ok 0
  end.
Definition ev_line (data : list string) : nat := start_line_or_end qha_ev data + 4.
Definition set_qha_points (data : list string) : res nat := count_pairs 100 data (ev_line data).
(** column [k] of the table: 1190-1249 *)
Definition ev_column (k : nat) (data : list string) (points : nat) : res (list fl) :=
  each (fun i => let? t := tokens data (ev_line data + i) in let? s := item t k in to_float s) (seq 0 points).
Definition qha_volumes := ev_column 0.
Definition qha_energies := ev_column 1.
(** crystal.py:1251-1282 *)
Fixpoint set_unit_cells_from (i : nat) (rest data : list string) : res (list cell) :=
  match rest with
  | [] => Ok []
  | l :: r =>
      if contains qha_opt l then let? c := cell_at data i in let? cs := set_unit_cells_from (S i) r data in Ok (c :: cs)
      else set_unit_cells_from (S i) r data
  end.
Definition set_unit_cells (data : list string) : res (list cell) := set_unit_cells_from 0 data data.
(** np.isclose(a, b): |a - b| <= 1e-8 + 1e-5 |b| *)
Definition isclose (a b : fl) : bool :=
  match a, b with
  | Num x, Num y => if Rle_dec (Rabs (x - y)) (1 / 10 ^ 8 + 1 / 10 ^ 5 * Rabs y) then true else false
  | _, _ => false
  end.
(** crystal.py:1304-1310: for i: for j: if isclose: indexes.append(j) *)
Definition matches (volume : fl) (ordered : list fl) (n : nat) : res (list nat) :=
  let? l := each (fun j => let? v := item ordered j in Ok (if isclose volume v then [j] else [])) (seq 0 n) in
  Ok (List.concat l).
Definition indexes (cells : list cell) (ordered : list fl) : res (list nat) :=
  let? l := each (fun c => matches (det3 (lattice c)) ordered (List.length cells)) cells in Ok (List.concat l).
(** list.index *)
Fixpoint index (l : list nat) (x : nat) : res nat :=
  match l with
  | [] => Raises "ValueError"
  | y :: r => if y =? x then Ok 0 else let? k := index r x in Ok (S k)
  end.
(** crystal.py:1284-1317 *)
Definition set_ordered_cells (cells : list cell) (ordered : list fl) : res (list cell) :=
  let? ix := indexes cells ordered in
  each (fun i => let? k := index ix i in item cells k) (seq 0 (List.length cells)).
(** crystal.py:1378-1382 *)
Fixpoint freq_lines_from (i : nat) (rest : list string) : list nat :=
  match rest with
  | [] => []
  | l :: r =>
      let more := freq_lines_from (S i) r in
      if contains qha_freq l then
        match split l with t :: _ => if String.eqb t "FREQUENCY" then (i + 3) :: more else more | [] => more end
      else more
  end.
Definition freq_lines (data : list string) : list nat := freq_lines_from 0 data.
(** 1384-1387: row i of phonon_matrix *)
Definition freq_row (data : list string) (points i : nat) : res (list fl) :=
  each (fun j => let? start := item (freq_lines data) i in
                 let? t := tokens data (start + j) in let? s := item t 1 in to_float s) (seq 0 points).
(** crystal.py:1369-1395 with [modes] = natom*3: band b is rows b*modes .. (b+1)*modes-1 *)
Definition qha_phonons (data : list string) (modes q points : nat) : res (list (list (list fl))) :=
  let? rows := each (freq_row data points) (seq 0 (modes * q)) in
  Ok (map (fun b => firstn modes (skipn (b * modes) rows)) (seq 0 q)).

(** The dictionary of the class (793-806), shared by all readers of the process;
    only the entries this class writes. Dictionaries with integer keys are lists
    of what the keys 0, 1, ... hold. *)
Record qha_class := {
  q_points : nat; q_cells : list cell; q_dim : flmat; q_energy : list fl; q_qpoints : Z;
  q_coords : list (list fl); q_weights : list fl; q_phonons : list (list (list fl)) }.
Definition qha_new : qha_class :=
  {| q_points := 0; q_cells := []; q_dim := identity3; q_energy := []; q_qpoints := 1; q_coords := []; q_weights := []; q_phonons := [] |}.
Inductive qha_verdict := QhaCompleted | NotQha | NoVolumes | FewVolumes | Restarted | QhaCrash (e : string).
(** for i in range(len(array)): d[i] = array[i]: entries beyond are left *)
Definition overwrite {A} (d new : list A) : list A := new ++ skipn (List.length new) d.
(** crystal.py:1397-1405 with kpoints = k: range(k) is empty for k <= 0 *)
Definition dummy_coords (k : Z) : list (list fl) := repeat [Num 0; Num 0; Num 0] (Z.to_nat k).
Definition dummy_weights (k : Z) : list fl := repeat (Num 1) (Z.to_nat k).
(** int(natom / kpoints): true division, then towards zero (1014-1019) *)
Definition qha_natom (c : qha_class) : res Z :=
  let? c0 := item (q_cells c) 0 in
  let? k := kpoints (q_dim c) in
  if (k =? 0)%Z then Raises "ZeroDivisionError" else Ok (Z.quot (Z.of_nat (natom c0)) k).
Definition with_points (c : qha_class) (n : nat) : qha_class :=
  {| q_points := n; q_cells := q_cells c; q_dim := q_dim c; q_energy := q_energy c; q_qpoints := q_qpoints c;
     q_coords := q_coords c; q_weights := q_weights c; q_phonons := q_phonons c |}.
Definition with_dim (c : qha_class) (m : flmat) : qha_class :=
  {| q_points := q_points c; q_cells := q_cells c; q_dim := m; q_energy := q_energy c; q_qpoints := q_qpoints c;
     q_coords := q_coords c; q_weights := q_weights c; q_phonons := q_phonons c |}.
Definition with_mesh (c : qha_class) (k : Z) : qha_class :=
  {| q_points := q_points c; q_cells := q_cells c; q_dim := q_dim c; q_energy := q_energy c; q_qpoints := k;
     q_coords := overwrite (q_coords c) (dummy_coords k); q_weights := overwrite (q_weights c) (dummy_weights k);
     q_phonons := q_phonons c |}.
Definition with_cells (c : qha_class) (l : list cell) : qha_class :=
  {| q_points := q_points c; q_cells := l; q_dim := q_dim c; q_energy := q_energy c; q_qpoints := q_qpoints c;
     q_coords := q_coords c; q_weights := q_weights c; q_phonons := q_phonons c |}.
Definition with_energy (c : qha_class) (l : list fl) : qha_class :=
  {| q_points := q_points c; q_cells := q_cells c; q_dim := q_dim c; q_energy := l; q_qpoints := q_qpoints c;
     q_coords := q_coords c; q_weights := q_weights c; q_phonons := q_phonons c |}.
Definition with_phonons (c : qha_class) (l : list (list (list fl))) : qha_class :=
  {| q_points := q_points c; q_cells := q_cells c; q_dim := q_dim c; q_energy := q_energy c; q_qpoints := q_qpoints c;
     q_coords := q_coords c; q_weights := q_weights c; q_phonons := l |}.
(** An exception leaves the class as it is at that moment. *)
Definition andthen {A} (c : qha_class) (r : res A) (f : A -> qha_class * qha_verdict) : qha_class * qha_verdict :=
  match r with Ok a => f a | Raises e => (c, QhaCrash e) | Hangs => (c, QhaCrash "unreachable") end.
(** set_phonons needs natom and qpoints: nfreq = natom * qpoints * 3, negative
    sizes are a ValueError of np.zeros; negative products of two negative counts
    (a left-handed expansion matrix) end in a ValueError of reshape, raised here
    before the frequencies are looked for (simplification) *)
Definition qha_modes (c : qha_class) : res nat :=
  let? n := qha_natom c in
  if ((n <? 0)%Z || (q_qpoints c <? 0)%Z)%bool then Raises "ValueError" else Ok (Z.to_nat n * 3).
(** crystal.py:812-858 *)
Definition qha_load (data : list string) (c : qha_class) : qha_class * qha_verdict :=
  if negb (has qha_header data) then (c, NotQha)
  else andthen c (set_qha_points data) (fun n =>
    let c1 := with_points c n in
    if n <? 1 then (c1, NoVolumes)
    else if n <? 4 then (c1, FewVolumes)
    else if has qha_restart data then (c1, Restarted)
    else
      andthen c1 (if has supercell_option data
                  then expansion_at data (start_line_or_end supercell_expansion data + 1)
                  else Ok (q_dim c1)) (fun m =>
      let c2 := with_dim c1 m in
      andthen c2 (kpoints (q_dim c2)) (fun k =>
      let c3 := with_mesh c2 k in
      andthen c3 (qha_volumes data n) (fun v =>
      andthen c3 (set_unit_cells data) (fun cells =>
      andthen c3 (set_ordered_cells cells v) (fun ordered =>
      let c4 := with_cells c3 ordered in
      andthen c4 (qha_energies data n) (fun e =>
      let c5 := with_energy c4 e in
      andthen c5 (qha_modes c5) (fun modes =>
      andthen c5 (qha_phonons data modes (Z.to_nat (q_qpoints c5)) n) (fun p =>
      (with_phonons c5 p, QhaCompleted)))))))))).
(** volume and energy per cell: 1029-1045; a completed reader has kpoints <> 0
    (division by a numpy zero, which would give inf, is not modelled) *)
Definition qha_volume (c : qha_class) : res (list fl) :=
  let? v := each (fun i => let? x := item (q_cells c) i in Ok (det3 (lattice x))) (seq 0 (q_points c)) in
  let? k := kpoints (q_dim c) in
  Ok (map (fun x => fdiv x (Num (IZR k))) v).
Definition qha_energy (c : qha_class) : res (list fl) :=
  let? k := kpoints (q_dim c) in Ok (map (fun x => fdiv x (Num (IZR k))) (q_energy c)).
(** Constructing readers one after another. *)
Definition qha_readers (files : list (list string)) (c : qha_class) : qha_class :=
  fold_left (fun c f => fst (qha_load f c)) files c.
