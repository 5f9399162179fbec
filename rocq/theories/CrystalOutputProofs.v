(** A CRYSTAL output which prints what CrystalOutputSpec says is read, and gives
    those numbers. *)
From Coq Require Import Reals String Ascii List Bool Arith ZArith Lia Lra.
From Verif Require Import Py DecimalModel SoecInterfaceModel CrystalModel CrystalProps CrystalCellProps CrystalOutputSpec.
Import ListNotations.
Open Scope string_scope.
Open Scope list_scope.
Open Scope nat_scope.

Lemma tokens_line data i l : nth_error data i = Some l -> tokens data i = Ok (split l).
Proof. intros H. unfold tokens, item. now rewrite H. Qed.
Lemma item_ok {A} (l : list A) k x : nth_error l k = Some x -> item l k = Ok x.
Proof. intros H. unfold item. now rewrite H. Qed.
Lemma nth_error_rev {A} (l : list A) k x : nth_error (rev l) k = Some x -> k < List.length l /\ nth_error l (List.length l - S k) = Some x.
Proof.
  intros H. assert (K : k < List.length l) by (rewrite <- rev_length; apply nth_error_Some; congruence). split; [exact K|].
  apply (nth_error_nth _ _ x) in H. rewrite rev_nth in H by exact K. rewrite (nth_error_nth' l x) by lia. now rewrite H.
Qed.
Lemma item_end_ok {A} (l : list A) k x : nth_error (rev l) k = Some x -> item_end l (S k) = Ok x.
Proof. intros H. apply nth_error_rev in H. destruct H as (K & H). unfold item_end. destruct (Nat.leb_spec (S k) (List.length l)); [|lia]. now apply item_ok. Qed.
Lemma count_ok t n : parse_int t = Some (Z.of_nat n) -> count t = Ok n.
Proof. intros H. unfold count, to_int. rewrite H. cbn [bind]. destruct (Z.ltb_spec (Z.of_nat n) 0); [lia|]. now rewrite Nat2Z.id. Qed.
Lemma each_total {A B} (f : A -> res B) l : (forall x, In x l -> exists y, f x = Ok y) -> exists ys, each f l = Ok ys /\ List.length ys = List.length l.
Proof.
  induction l as [|x l IH]; intros H; [now exists []|]. destruct (H x (or_introl eq_refl)) as (y & Y). destruct IH as (ys & Ys & L); [intros z I0; apply H; now right|].
  exists (y :: ys). cbn [each]. rewrite Y. cbn [bind]. rewrite Ys. split; [reflexivity|]. cbn [List.length]. now rewrite L.
Qed.
Lemma each_values {A B} (f : A -> res B) (g : A -> B) l : (forall x, In x l -> f x = Ok (g x)) -> each f l = Ok (map g l).
Proof.
  induction l as [|x l IH]; intros H; [reflexivity|]. cbn [each map]. rewrite H by now left. cbn [bind]. rewrite IH; [reflexivity|]. intros y I0. apply H. now right.
Qed.
(** A word of a line which is a number *)
Lemma number_item data i k v l : number_at data i k v -> nth_error data i = Some l -> (let? s := item (split l) k in to_float s) = Ok v.
Proof.
  intros (l' & t & N & T & P0) E. rewrite E in N. injection N as <-. rewrite (item_ok _ _ _ T). cbn [bind]. unfold to_float. now rewrite P0.
Qed.
Lemma number_line data i k v : number_at data i k v -> exists l, nth_error data i = Some l.
Proof. intros (l & _ & N & _). eauto. Qed.

(** ** Atoms and cells *)
Lemma atoms_ok data announced first n : atoms_printed data announced first n ->
  (let? t := tokens data announced in let? s := item_end t 1 in count s) = Ok n /\
  exists a, atoms data first n = Ok a.
Proof.
  intros ((l & t & N & T & P0) & H). split.
  - rewrite (tokens_line _ _ _ N). cbn [bind]. rewrite (item_end_ok _ 0 _ T). cbn [bind]. now apply count_ok.
  - unfold atoms. destruct (each_total (fun i => atom data (first + i)) (seq 0 n)) as (ys & Y & _); [|eauto].
    intros a I0. apply in_seq in I0. destruct (H a ltac:(lia)) as ((z & l' & u & N' & U & Pz) & Q).
    unfold atom. rewrite (tokens_line _ _ _ N'). cbn [bind]. rewrite (item_ok _ _ _ U). cbn [bind]. unfold to_int. rewrite Pz. cbn [bind].
    destruct (each_total (fun j => let? s := item (split l') (4 + j) in to_float s) (seq 0 3)) as (ps & Ps & _).
    + intros j Ij. apply in_seq in Ij. destruct (Q j ltac:(lia)) as (v & V). exists v. now apply (number_item data (first + a)).
    + rewrite Ps. cbn [bind]. eauto.
Qed.
Lemma floats_of data i skip n : (exists l, nth_error data i = Some l /\ List.length (split l) = skip + n) -> forall f, (forall j, j < n -> number_at data i (skip + j) (f j)) ->
  forall l, nth_error data i = Some l -> each to_float (skipn skip (split l)) = Ok (map f (seq 0 n)).
Proof.
  intros (l0 & N0 & Ln) f H l N. rewrite N in N0. injection N0 as <-.
  assert (G : forall n s, List.length s = n -> forall f, (forall j, j < n -> exists t, nth_error s j = Some t /\ to_float t = Ok (f j)) -> each to_float s = Ok (map f (seq 0 n))).
  { clear. induction n as [|n IH]; intros s L f H.
    - destruct s; [reflexivity|discriminate].
    - destruct s as [|x s]; [discriminate|]. cbn [each]. destruct (H 0 ltac:(lia)) as (t & T & V). cbn [nth_error] in T. injection T as <-. rewrite V. cbn [bind seq map].
      rewrite (IH s ltac:(cbn in L; lia) (fun j => f (S j))); [cbn [bind]; rewrite <- seq_shift, map_map; reflexivity|].
      intros j Hj. apply (H (S j)). lia. }
  apply G; [rewrite skipn_length; lia|]. intros j Hj. destruct (H j Hj) as (l' & t & N' & T & P0). rewrite N in N'. injection N' as <-.
  exists t. unfold to_float. rewrite P0. split; [|reflexivity].
  assert (SK : forall A (x : list A) a b, nth_error (skipn a x) b = nth_error x (a + b)).
  { clear. intros A x a. revert x. induction a as [|a IH]; intros x b; [reflexivity|]. destruct x as [|y x]; [now destruct b|]. apply IH. }
  now rewrite SK.
Qed.
Lemma row_ok data i skip r l : row_at data i skip r -> nth_error data i = Some l ->
  exists s, (let? v := each to_float (skipn skip (split l)) in row3 v) = Ok s /\ forall j, j < 3 -> s j = r j.
Proof.
  intros (l0 & N0 & Lk & [(L3 & H)|(L1 & H)]) N; rewrite N in N0; injection N0 as <-.
  - rewrite (floats_of data i skip 3 (ex_intro _ l (conj N L3)) r H l N). cbn [bind seq map row3]. eexists. split; [reflexivity|].
    intros [|[|[|j]]] Hj; try lia; reflexivity.
  - rewrite (floats_of data i skip 1 (ex_intro _ l (conj N L1)) r) with (l := l); [|intros j Hj; assert (j = 0) as -> by lia; rewrite Nat.add_0_r; apply H|exact N].
    cbn [bind seq map row3]. eexists. split; [reflexivity|]. intros j _.
    destruct (H 0) as (l1 & t1 & N1 & T1 & P1). destruct (H j) as (l2 & t2 & N2 & T2 & P2). congruence.
Qed.
Lemma row_has_line data i skip r : row_at data i skip r -> exists l, nth_error data i = Some l /\ skip <= List.length (split l).
Proof. intros (l & N & L & _). eauto. Qed.
Lemma lattice_row_ok data i r : row_at data i 0 r -> exists s, lattice_row data i = Ok s /\ forall j, j < 3 -> s j = r j.
Proof.
  intros H. destruct (row_has_line _ _ _ _ H) as (l & N & _). destruct (row_ok _ _ _ _ _ H N) as (s & E & F). exists s. split; [|exact F].
  unfold lattice_row. rewrite (tokens_line _ _ _ N). exact E.
Qed.
Lemma expansion_row_ok data i r : row_at data i 1 r -> exists s, expansion_row data i = Ok s /\ forall j, j < 3 -> s j = r j.
Proof.
  intros H. destruct (row_has_line _ _ _ _ H) as (l & N & L). destruct (row_ok _ _ _ _ _ H N) as (s & E & F). exists s. split; [|exact F].
  unfold expansion_row. rewrite (tokens_line _ _ _ N). cbn [bind]. destruct (split l) as [|t ts]; [cbn in L; lia|]. exact E.
Qed.
Lemma rows_nums r0 r1 r2 (A : rmat) : (forall j, j < 3 -> r0 j = Num (A 0 j)) -> (forall j, j < 3 -> r1 j = Num (A 1 j)) -> (forall j, j < 3 -> r2 j = Num (A 2 j)) ->
  nums (rows3 r0 r1 r2) A.
Proof. intros H0 H1 H2 [|[|[|i]]] j Hi Hj; try lia; cbn [rows3]; auto. Qed.
Lemma wf_cell_ok data n A : cell_printed data n A -> exists c, set_wf_cell data = Ok c /\ natom c = n /\ nums (lattice c) A.
Proof.
  intros (s & k & F & At & FL & RW). unfold set_wf_cell. rewrite (proj2 (start_line_first geometry_wf data s) F). cbn [found bind].
  unfold cell_at. destruct (atoms_ok _ _ _ _ At) as (C & a & Ea).
  destruct (tokens data (s + 8)) as [t| |]; try discriminate. cbn [bind] in C |- *. rewrite C. cbn [bind]. rewrite Ea. cbn [bind].
  unfold lattice_from. rewrite (proj2 (start_line_first lattice_vectors _ k) FL). unfold lattice_at.
  destruct (lattice_row_ok data (s + 11 + n + k + 2) (fun j => Num (A 0 j))) as (r0 & R0 & Q0); [rewrite <- (Nat.add_0_r (_ + 2)); apply RW; lia|].
  destruct (lattice_row_ok data (s + 11 + n + k + 3) (fun j => Num (A 1 j))) as (r1 & R1 & Q1); [replace (s + 11 + n + k + 3) with (s + 11 + n + k + 2 + 1) by lia; apply RW; lia|].
  destruct (lattice_row_ok data (s + 11 + n + k + 4) (fun j => Num (A 2 j))) as (r2 & R2 & Q2); [replace (s + 11 + n + k + 4) with (s + 11 + n + k + 2 + 2) by lia; apply RW; lia|].
  rewrite R0, R1, R2. cbn [bind]. eexists. split; [reflexivity|]. cbn [natom lattice]. split; [reflexivity|]. now apply rows_nums.
Qed.
Lemma init_cell_ok data n : (exists s, first_line geometry_consistent data s /\ atoms_printed data (s + 7) (s + 10) n) -> exists c, set_init_cell data = Ok c /\ natom c = n.
Proof.
  intros (s & F & At). unfold set_init_cell. rewrite (proj2 (start_line_first geometry_consistent data s) F). cbn [found bind].
  destruct (atoms_ok _ _ _ _ At) as (C & a & Ea). destruct (tokens data (s + 7)) as [t| |]; try discriminate. cbn [bind] in C |- *. rewrite C. cbn [bind]. rewrite Ea.
  cbn [bind]. eexists. split; reflexivity.
Qed.
Lemma expansion_ok data E : (exists s, first_line supercell_expansion data s /\ forall i, i < 3 -> row_at data (s + 1 + i) 1 (fun j => Num (E i j))) ->
  exists e, set_expansion data = Ok e /\ nums e E.
Proof.
  intros (s & F & RW). unfold set_expansion. rewrite (proj2 (start_line_first supercell_expansion data s) F). cbn [found bind]. unfold expansion_at.
  destruct (expansion_row_ok data (s + 1) (fun j => Num (E 0 j))) as (r0 & R0 & Q0); [rewrite <- (Nat.add_0_r (s + 1)); apply RW; lia|].
  destruct (expansion_row_ok data (s + 1 + 1) (fun j => Num (E 1 j))) as (r1 & R1 & Q1); [apply RW; lia|].
  destruct (expansion_row_ok data (s + 1 + 2) (fun j => Num (E 2 j))) as (r2 & R2 & Q2); [apply RW; lia|].
  rewrite R0, R1, R2. cbn [bind]. eexists. split; [reflexivity|]. now apply rows_nums.
Qed.
Lemma energy_ok data x : energy_printed data x -> set_energy data = Ok (Num x).
Proof.
  intros (s & F & N). unfold set_energy. rewrite (proj2 (start_line_first central_energy data s) F). cbn [found bind].
  destruct (number_line _ _ _ _ N) as (l & L). rewrite (tokens_line _ _ _ L). cbn [bind]. now apply (number_item data s).
Qed.

(** ** Tables *)
Lemma numbered_covers k ls e : numbered k ls e -> forall n, (k <= n < e)%Z -> exists l n1 n2 v, In l ls /\ says l n1 n2 v /\ (n1 <= n <= n2)%Z.
Proof.
  induction 1 as [k|k l n2 v ls e SY L _ IH]; intros n Hn; [lia|]. destruct (Z.le_gt_cases n n2) as [Q|Q].
  - exists l, k, n2, v. split; [now left|]. split; [exact SY|lia].
  - destruct (IH n ltac:(lia)) as (l' & a & b & u & I0 & S1 & B). exists l', a, b, u. split; [now right|]. split; assumption.
Qed.
Lemma table_ok data i n F : table_printed data i n F -> read_band data i (n * 3) = Ok (map (fun m => Num (F m)) (seq 0 (n * 3))).
Proof.
  intros (pre & bl & post & E & B & N & H). destruct (C57_mode_frequency data i pre bl post (n * 3) E B N) as (b & Rb & L & V). rewrite Rb. f_equal.
  assert (X : forall p, nth_error b p = nth_error (map (fun m => Num (F m)) (seq 0 (n * 3))) p).
  { intros p. destruct (Nat.lt_ge_cases p (n * 3)) as [Q|Q].
    - destruct (numbered_covers _ _ _ N (Z.of_nat p + 1) ltac:(lia)) as (l & n1 & n2 & v & I0 & S1 & Bn).
      pose proof (V l n1 n2 v (Z.of_nat p + 1)%Z I0 S1 Bn) as W. replace (Z.to_nat (Z.of_nat p + 1 - 1)) with p in W by lia. rewrite W.
      rewrite (H l n1 n2 v _ I0 S1 Bn). replace (Z.to_nat (Z.of_nat p + 1 - 1)) with p by lia.
      rewrite nth_error_map. rewrite (nth_error_nth' (seq 0 (n * 3)) 0) by now rewrite seq_length. now rewrite seq_nth.
    - rewrite (proj2 (nth_error_None b p)) by lia. symmetry. apply nth_error_None. now rewrite map_length, seq_length. }
  clear - X. revert X. generalize (map (fun m => Num (F m)) (seq 0 (n * 3))). induction b as [|x b IH]; intros [|y m] X; [reflexivity|specialize (X 0); discriminate|specialize (X 0); discriminate|].
  f_equal; [specialize (X 0); cbn in X; congruence|]. apply IH. intros p. apply (X (S p)).
Qed.
Definition bands_of (nq n : nat) (F : nat -> nat -> R) : list (list R) := map (fun k => map (F k) (seq 0 (n * 3))) (seq 0 nq).
Lemma tables_ok data nq n F : 0 < nq -> tables_printed data nq n F -> set_phonons data (n * 3) nq = Ok (map (map Num) (bands_of nq n F)).
Proof.
  intros P0 (L & H). rewrite C57_bands by lia. unfold bands_of. rewrite map_map.
  assert (G : forall nq l F, nq <= List.length l -> (forall k i, k < nq -> nth_error l k = Some i -> table_printed data i n (F k)) ->
     each (fun i => read_band data i (n * 3)) (firstn nq l) = Ok (map (fun k => map Num (map (F k) (seq 0 (n * 3)))) (seq 0 nq))).
  { clear. induction nq as [|q IH]; intros l F L H; [reflexivity|]. destruct l as [|i l]; [cbn in L; lia|]. cbn [firstn each].
    rewrite (table_ok data i n (F 0)) by (apply (H 0 i); [lia|reflexivity]). cbn [bind seq map].
    rewrite (IH l (fun k => F (S k))); [cbn [bind]; rewrite <- seq_shift, map_map; rewrite map_map; reflexivity|cbn in L; lia|].
    intros k j Hk Hj. apply (H (S k) j); [lia|exact Hj]. }
  now apply G.
Qed.

(** ** The mesh *)
Lemma last_line_spec s data h : last_with s data h -> forall i def, last_line s i data def = i + h + 1.
Proof.
  revert h. induction data as [|l r IH]; intros h ((x & N & C) & F) i def; [destruct h; discriminate|]. cbn [last_line]. destruct h as [|h].
  - cbn [nth_error] in N. injection N as <-. rewrite C.
    assert (Q : forall r i def, (forall k l, nth_error r k = Some l -> contains s l = false) -> last_line s i r def = def).
    { clear. induction r as [|l r IH]; intros i def H; [reflexivity|]. cbn [last_line]. rewrite (H 0 l eq_refl). apply IH. intros k x N. exact (H (S k) x N). }
    rewrite Q; [lia|]. intros k y Ny. apply (F (S k) y); [lia|exact Ny].
  - rewrite (IH h); [lia|]. split; [exists x; now split|]. intros k y Hk Ny. apply (F (S k) y); [lia|exact Ny].
Qed.
Definition triple_of (f : nat -> R) : list fl := [Num (f 0); Num (f 1); Num (f 2)].
Lemma mesh_ok data nq q w m : mesh_printed data nq q w m ->
  set_q_mesh data = Ok {| qpoints := nq; qcoords := map (fun i => triple_of (q i)) (seq 0 nq); qweights := map (fun i => Num (w i)) (seq 0 nq); shrink := triple_of m |}.
Proof.
  intros (an & first & ST & (l & t & N & T & P0) & RW & SH). unfold set_q_mesh.
  assert (X : found (match start_line hess_interpolation data with Some i => Some i | None => start_line scelphono_qpoints data end) = Ok an /\
              match start_line hess_interpolation data with Some i => i + 9 | None => last_line q_header 0 data an end = first).
  { destruct ST as [(F & ->)|(HN & F & h & Lw & ->)].
    - rewrite (proj2 (start_line_first hess_interpolation data an) F). split; reflexivity.
    - rewrite (proj2 (start_line_none hess_interpolation data) HN), (proj2 (start_line_first scelphono_qpoints data an) F).
      split; [reflexivity|]. rewrite (last_line_spec q_header data h Lw). lia. }
  destruct X as (X1 & X2). rewrite X1. cbn [bind]. rewrite X2, (tokens_line _ _ _ N). cbn [bind]. rewrite (item_end_ok _ 3 _ T). cbn [bind]. rewrite (count_ok _ _ P0). cbn [bind].
  rewrite (each_values (fun i => q_row data (first + i)) (fun i => (Num (w i), triple_of (q i)))).
  - cbn [bind]. destruct (number_line _ _ _ _ (SH 0 ltac:(lia))) as (ls & Ls). rewrite (tokens_line _ _ _ Ls). cbn [bind each].
    pose proof (number_item _ _ _ _ _ (SH 0 ltac:(lia)) Ls) as S0. pose proof (number_item _ _ _ _ _ (SH 1 ltac:(lia)) Ls) as S1. pose proof (number_item _ _ _ _ _ (SH 2 ltac:(lia)) Ls) as S2.
    cbn [Nat.mul Nat.add] in S0, S1, S2. rewrite S0, S1, S2. cbn [bind]. rewrite !map_map. reflexivity.
  - intros i I0. apply in_seq in I0. destruct (RW i ltac:(lia)) as (W & Q). unfold q_row. destruct (number_line _ _ _ _ W) as (lw & Lw). rewrite (tokens_line _ _ _ Lw). cbn [bind].
    rewrite (number_item _ _ _ _ _ W Lw). cbn [bind seq each].
    pose proof (number_item _ _ _ _ _ (Q 0 ltac:(lia)) Lw) as S0. pose proof (number_item _ _ _ _ _ (Q 1 ltac:(lia)) Lw) as S1. pose proof (number_item _ _ _ _ _ (Q 2 ltac:(lia)) Lw) as S2.
    cbn [Nat.add] in S0, S1, S2 |- *. rewrite S0, S1, S2. reflexivity.
Qed.

(** ** The whole reader *)
Lemma load_ok data u s e q x p : has frequency_calculation data = true -> geometry data = Ok (u, s, e, q) -> set_energy data = Ok x ->
  let d p := {| supercell_on := has supercell_option data; scelphono_on := has scelphono_option data; unitcell := u; supercell := s;
                dim := e; mesh := q; raw_energy := x; phonons := p |} in
  set_phonons data (nphonon (d [])) (qpoints q) = Ok p -> check (d p) = Ok Completed -> phonon_load data = Ok (Some (d p), Completed).
Proof.
  intros F G E d SP CK. unfold phonon_load. rewrite F. cbn [negb]. rewrite G. cbn [bind]. rewrite E. cbn [bind]. fold (d []). rewrite SP. cbn [bind].
  cbn [supercell_on scelphono_on d]. fold (d p). rewrite CK. reflexivity.
Qed.
Lemma any_nums m A : nums m A -> rdet A <> 0%R -> any3 m = true.
Proof.
  intros H D. unfold any3. destruct (forallb _ (seq 0 3)) eqn:E; [exfalso|reflexivity]. apply D.
  assert (Z : forall i j, i < 3 -> j < 3 -> A i j = 0%R).
  { intros i j Hi Hj. rewrite forallb_forall in E. specialize (E i ltac:(apply in_seq; lia)). rewrite forallb_forall in E. specialize (E j ltac:(apply in_seq; lia)).
    rewrite (H i j Hi Hj) in E. cbn [is_zero] in E. destruct (Req_EM_T (A i j) 0); [assumption|discriminate]. }
  unfold rdet. rewrite !Z by lia. ring.
Qed.
Lemma bands_not_empty nq n F : 0 < nq -> map (map Num) (bands_of nq n F) <> [].
Proof. destruct nq; [lia|discriminate]. Qed.
Definition gamma_mesh : qmesh := {| qpoints := 1; qcoords := [[Num 0; Num 0; Num 0]]; qweights := [Num 1]; shrink := [Num 1; Num 1; Num 1] |}.
Lemma gamma_read data n A x F : gamma_output data n A x F ->
  exists d, phonon_load data = Ok (Some d, Completed) /\ reported_natom d = n /\ nphonon d = n * 3 /\ dim d = identity3 /\ mesh d = gamma_mesh /\
    reported_volume d = Num (rdet A) /\ reported_energy d = Ok (Num x) /\ phonons d = map (map Num) (bands_of 1 n (fun _ => F)).
Proof.
  intros [(K1 & K2) CL V EN B TB]. destruct (wf_cell_ok _ _ _ CL) as (c & C & Nc & Lc).
  assert (G : geometry data = Ok (c, c, identity3, gamma_mesh)) by (unfold geometry, supercell_option; rewrite K2, C; reflexivity).
  set (d := fun p => {| supercell_on := has supercell_option data; scelphono_on := has scelphono_option data; unitcell := c; supercell := c;
                dim := identity3; mesh := gamma_mesh; raw_energy := Num x; phonons := p |}).
  assert (RC : forall p, reported_cell (d p) = c) by (intros p; unfold reported_cell, d, supercell_option; cbn [supercell_on unitcell]; now rewrite K2).
  assert (RE : forall p, reported_energy (d p) = Ok (Num x)).
  { intros p. rewrite (energy_of (d p) x 1 eq_refl); [do 2 f_equal; field| |unfold d, supercell_option; cbn [supercell_on]; now rewrite K2|discriminate].
    apply (kpoints_integral _ id3); [|exact rdet_id]. intros i j Hi Hj. cbn [d dim]. unfold identity3, id3. now destruct (i =? j). }
  exists (d (map (map Num) (bands_of 1 n (fun _ => F)))). split.
  - apply (load_ok data c c identity3 gamma_mesh (Num x)).
    + exact K1.
    + exact G.
    + now apply energy_ok.
    + fold (d []). unfold nphonon. rewrite RC, Nc. cbn [gamma_mesh qpoints]. apply tables_ok; [lia|exact TB].
    + fold (d (map (map Num) (bands_of 1 n (fun _ => F)))). unfold check. rewrite RE. cbn [bind is_zero]. destruct (Req_EM_T x 0); [contradiction|]. rewrite RC, (any_nums _ A Lc V). reflexivity.
  - unfold reported_natom, nphonon, reported_volume. rewrite !RC. repeat split; try assumption; try reflexivity; [now rewrite Nc|now apply det_nums|apply RE].
Qed.
Lemma dispersion_read data n nq A E x q w m F : dispersion_output data n nq A E x q w m F ->
  exists d, phonon_load data = Ok (Some d, Completed) /\ reported_natom d = n /\ nphonon d = n * 3 /\ nums (dim d) E /\
    mesh d = {| qpoints := nq; qcoords := map (fun i => triple_of (q i)) (seq 0 nq); qweights := map (fun i => Num (w i)) (seq 0 nq); shrink := triple_of m |} /\
    reported_volume d = Num (rdet A / rdet E) /\ reported_energy d = Ok (Num (x / rdet E)) /\ phonons d = map (map Num) (bands_of nq n F).
Proof.
  intros [(K1 & K2 & K3) (ns & CL) V UC EX I D MS P0 EN B TB].
  destruct (wf_cell_ok _ _ _ CL) as (s & S0 & Ns & Ls). destruct (init_cell_ok _ _ UC) as (u & U & Nu). destruct (expansion_ok _ _ EX) as (e & Ee & Ne).
  destruct (inv_regular e E Ne D) as (ie & IE). pose proof (mesh_ok _ _ _ _ _ MS) as M0. set (mm := {| qpoints := nq |}) in *.
  set (c := {| natom := natom u; numbers := numbers u; positions := positions u; lattice := dot3 (lattice s) ie |}).
  assert (G : geometry data = Ok (c, s, e, mm)).
  { unfold geometry, supercell_option. rewrite K2, S0. cbn [bind]. rewrite U. cbn [bind]. rewrite Ee. cbn [bind]. rewrite IE. cbn [bind]. rewrite M0. reflexivity. }
  set (d := fun p => {| supercell_on := has supercell_option data; scelphono_on := has scelphono_option data; unitcell := c; supercell := s;
                dim := e; mesh := mm; raw_energy := Num x; phonons := p |}).
  assert (RC : forall p, reported_cell (d p) = c) by (intros p; unfold reported_cell, d, supercell_option, scelphono_option; cbn [supercell_on scelphono_on unitcell]; now rewrite K2, K3).
  destruct (inv_nums _ _ _ Ne IE) as (_ & NI). pose proof (mul_nums _ _ _ _ Ls NI) as NL.
  assert (VOL : (rdet (rmul A (radj E)) * rdet E = rdet A)%R).
  { rewrite rdet_mul. rewrite Rmult_assoc, <- rdet_mul. rewrite (rdet_same _ _ (radj_left E D)), rdet_id. ring. }
  destruct (det_integral E I) as (k & Dk). assert (K0 : k <> 0%Z) by (intros ->; apply D; exact Dk).
  assert (RE : forall p, reported_energy (d p) = Ok (Num (x / rdet E))).
  { intros p. rewrite (energy_of (d p) x k eq_refl); [now rewrite Dk|now apply (kpoints_integral _ E)| |exact K0].
    unfold d, supercell_option, scelphono_option. cbn [supercell_on scelphono_on]. now rewrite K2, K3. }
  exists (d (map (map Num) (bands_of nq n F))). split.
  - apply (load_ok data c s e mm (Num x)).
    + exact K1.
    + exact G.
    + now apply energy_ok.
    + fold (d []). unfold nphonon. rewrite RC. cbn [natom c mm qpoints]. rewrite Nu. now apply tables_ok.
    + fold (d (map (map Num) (bands_of nq n F))). unfold check. rewrite RE. cbn [bind is_zero]. destruct (Req_EM_T (x / rdet E) 0) as [Z|_].
      { exfalso. apply B. unfold Rdiv in Z. apply Rmult_integral in Z. destruct Z as [Z|Z]; [exact Z|]. exfalso. exact (Rinv_neq_0_compat _ D Z). }
      rewrite RC. cbn [lattice c]. rewrite (any_nums _ _ NL) by (intros Z; rewrite Z in VOL; rewrite Rmult_0_l in VOL; congruence). cbn [negb phonons d].
      destruct (map (map Num) (bands_of nq n F)) eqn:Q; [|reflexivity]. now apply bands_not_empty in Q.
  - unfold reported_natom, nphonon, reported_volume. rewrite !RC. cbn [natom c lattice]. rewrite Nu. repeat split; try assumption; try reflexivity; [|apply RE].
    rewrite (det_nums _ _ NL). f_equal. rewrite <- VOL. field. exact D.
Qed.
