(** C75: cells, volumes and energies of CRYSTAL phonon outputs. *)
From Coq Require Import Reals String Ascii List Bool Arith ZArith NArith Lia Lra.
From Verif Require Import Py DecimalModel SoecInterfaceModel CrystalModel CrystalProps.
Import ListNotations.
Open Scope string_scope.
Open Scope list_scope.
Open Scope nat_scope.

(** ** Real 3x3 matrices *)
Definition rmat := nat -> nat -> R.
Definition nums (m : flmat) (M : rmat) : Prop := forall i j, i < 3 -> j < 3 -> m i j = Num (M i j).
Definition rdet (M : rmat) : R :=
  (M 0%nat 0%nat * (M 1%nat 1%nat * M 2%nat 2%nat - M 1%nat 2%nat * M 2%nat 1%nat)
   - M 0%nat 1%nat * (M 1%nat 0%nat * M 2%nat 2%nat - M 1%nat 2%nat * M 2%nat 0%nat)
   + M 0%nat 2%nat * (M 1%nat 0%nat * M 2%nat 1%nat - M 1%nat 1%nat * M 2%nat 0%nat))%R.
Definition rmul (A B : rmat) : rmat := fun i j => (A i 0%nat * B 0%nat j + A i 1%nat * B 1%nat j + A i 2%nat * B 2%nat j)%R.
Definition same (A B : rmat) : Prop := forall i j, i < 3 -> j < 3 -> A i j = B i j.
Lemma det_nums m M : nums m M -> det3 m = Num (rdet M).
Proof. intros H. unfold det3. rewrite !H by lia. reflexivity. Qed.
Lemma mul_nums a b A B : nums a A -> nums b B -> nums (dot3 a b) (rmul A B).
Proof. intros HA HB i j Hi Hj. unfold dot3, sum3. rewrite !HA, !HB by lia. reflexivity. Qed.
Lemma three (P : nat -> Prop) : P 0 -> P 1 -> P 2 -> forall i, i < 3 -> P i.
Proof. intros A B C [|[|[|i]]] H; try assumption; lia. Qed.
Ltac entries := let i := fresh in let j := fresh in let Hi := fresh in let Hj := fresh in
  intros i j Hi Hj; destruct i as [|[|[|i]]]; [| | |lia]; (destruct j as [|[|[|j]]]; [| | |lia]); clear Hi Hj.
Lemma rdet_mul A B : rdet (rmul A B) = (rdet A * rdet B)%R.
Proof. unfold rdet, rmul. ring. Qed.
Definition radj (M : rmat) : rmat := fun i j =>
  let i1 := (j + 1) mod 3 in let i2 := (j + 2) mod 3 in let j1 := (i + 1) mod 3 in let j2 := (i + 2) mod 3 in
  ((M i1 j1 * M i2 j2 - M i1 j2 * M i2 j1) / rdet M)%R.
Lemma inv_nums m M im : nums m M -> inv3 m = Ok im -> rdet M <> 0%R /\ nums im (radj M).
Proof.
  intros H. unfold inv3. rewrite (det_nums m M H). destruct (Req_EM_T (rdet M) 0) as [E|E]; [discriminate|].
  assert (INJ : forall a b : flmat, Ok a = Ok b -> b = a) by congruence. intros Q. apply INJ in Q. subst im. split; [exact E|].
  intros i j Hi Hj. unfold radj.
  assert (L : forall k, k mod 3 < 3) by (intros k; apply Nat.mod_upper_bound; lia).
  unfold cof. rewrite !H by apply L. reflexivity.
Qed.
Lemma inv_regular m M : nums m M -> rdet M <> 0%R -> exists im, inv3 m = Ok im.
Proof. intros H N. unfold inv3. rewrite (det_nums m M H). destruct (Req_EM_T (rdet M) 0); [contradiction|]. eauto. Qed.
Definition id3 : rmat := fun i j => if i =? j then 1%R else 0%R.
Lemma radj_right M : rdet M <> 0%R -> same (rmul M (radj M)) id3.
Proof.
  intros N. entries; unfold rmul, radj, id3;
    change ((0 + 1) mod 3) with 1; change ((0 + 2) mod 3) with 2; change ((1 + 1) mod 3) with 2; change ((1 + 2) mod 3) with 0;
    change ((2 + 1) mod 3) with 0; change ((2 + 2) mod 3) with 1; cbv zeta; cbn [Nat.eqb]; apply (Rmult_eq_reg_r (rdet M)); try assumption;
    field_simplify; try assumption; unfold rdet; ring.
Qed.
Lemma radj_left M : rdet M <> 0%R -> same (rmul (radj M) M) id3.
Proof.
  intros N. entries; unfold rmul, radj, id3;
    change ((0 + 1) mod 3) with 1; change ((0 + 2) mod 3) with 2; change ((1 + 1) mod 3) with 2; change ((1 + 2) mod 3) with 0;
    change ((2 + 1) mod 3) with 0; change ((2 + 2) mod 3) with 1; cbv zeta; cbn [Nat.eqb]; apply (Rmult_eq_reg_r (rdet M)); try assumption;
    field_simplify; try assumption; unfold rdet; ring.
Qed.
Lemma rmul_assoc A B C : same (rmul (rmul A B) C) (rmul A (rmul B C)).
Proof. intros i j _ _. unfold rmul. ring. Qed.
Lemma rmul_same A A' B B' : same A A' -> same B B' -> same (rmul A B) (rmul A' B').
Proof. intros HA HB i j Hi Hj. unfold rmul. rewrite !HA, !HB by lia. reflexivity. Qed.
Lemma rmul_id A : same (rmul A id3) A.
Proof. entries; unfold rmul, id3; cbn [Nat.eqb]; ring. Qed.
Lemma same_trans A B C : same A B -> same B C -> same A C.
Proof. intros H K i j Hi Hj. rewrite H, K by assumption. reflexivity. Qed.
Lemma same_sym A B : same A B -> same B A.
Proof. intros H i j Hi Hj. symmetry. now apply H. Qed.
Lemma same_refl A : same A A. Proof. intros i j _ _. reflexivity. Qed.
Lemma rdet_same A B : same A B -> rdet A = rdet B.
Proof. intros H. unfold rdet. rewrite !H by lia. reflexivity. Qed.
Lemma rdet_id : rdet id3 = 1%R.
Proof. unfold rdet, id3. cbn [Nat.eqb]. ring. Qed.

(** ** What a successful [load] went through *)
Lemma load_inv data d v : phonon_load data = Ok (Some d, v) ->
  has frequency_calculation data = true /\
  supercell_on d = has supercell_option data /\ scelphono_on d = has scelphono_option data /\
  geometry data = Ok (unitcell d, supercell d, dim d, mesh d) /\
  set_energy data = Ok (raw_energy d) /\ set_phonons data (nphonon d) (qpoints (mesh d)) = Ok (phonons d) /\ check d = Ok v.
Proof.
  unfold phonon_load. destruct (has frequency_calculation data); cbn [negb]; [|discriminate].
  destruct (geometry data) as [[[[u s] e] q]| |]; cbn [bind]; try discriminate.
  destruct (set_energy data) as [en| |]; cbn [bind]; try discriminate.
  set (pd := {| supercell_on := _ |}).
  destruct (set_phonons data (nphonon pd) (qpoints q)) as [p| |] eqn:SP; cbn [bind]; try discriminate.
  set (dd := {| supercell_on := supercell_on pd; scelphono_on := scelphono_on pd; unitcell := u |}).
  destruct (check dd) as [w| |] eqn:CK; cbn [bind]; try discriminate. intros [= <- <-].
  repeat split; try reflexivity; assumption.
Qed.
Lemma supercell_inv data d v : phonon_load data = Ok (Some d, v) -> supercell_on d = true ->
  exists ie, inv3 (dim d) = Ok ie /\ lattice (unitcell d) = dot3 (lattice (supercell d)) ie /\
    set_wf_cell data = Ok (supercell d) /\ set_expansion data = Ok (dim d) /\ set_q_mesh data = Ok (mesh d).
Proof.
  intros L S0. apply load_inv in L. destruct L as (_ & SO & _ & G & _). rewrite S0 in SO. unfold geometry in G. rewrite <- SO in G.
  destruct (set_wf_cell data) as [s| |]; cbn [bind] in G; try discriminate.
  destruct (set_init_cell data) as [u| |]; cbn [bind] in G; try discriminate.
  destruct (set_expansion data) as [e| |]; cbn [bind] in G; try discriminate.
  destruct (inv3 e) as [ie| |] eqn:IE; cbn [bind] in G; try discriminate.
  destruct (set_q_mesh data) as [q| |]; cbn [bind] in G; try discriminate.
  injection G as. subst. exists ie. rewrite <- H. repeat split; try assumption; reflexivity.
Qed.
Lemma gamma_inv data d v : phonon_load data = Ok (Some d, v) -> supercell_on d = false ->
  dim d = identity3 /\ supercell d = unitcell d /\ set_wf_cell data = Ok (unitcell d) /\ qpoints (mesh d) = 1.
Proof.
  intros L S0. apply load_inv in L. destruct L as (_ & SO & _ & G & _). rewrite S0 in SO. unfold geometry in G. rewrite <- SO in G.
  destruct (set_wf_cell data) as [s| |]; cbn [bind] in G; try discriminate.
  set (q0 := {| qpoints := 1 |}) in G.
  assert (A : forall (a b : cell) (m : flmat) (q : qmesh) a' b' m' q', Ok (a, b, m, q) = Ok (a', b', m', q') -> a' = a /\ b' = b /\ m' = m /\ q' = q) by (intros; repeat split; congruence).
  destruct (A _ _ _ _ _ _ _ _ G) as (-> & -> & -> & ->). repeat split.
Qed.

(** ** Volume and energy belong to the same cell *)
Lemma around_int n : around (IZR n) = n.
Proof.
  unfold around. assert (Q : Int_part (IZR n) = n).
  { unfold Int_part. rewrite <- (tech_up (IZR n) (n + 1)); [lia| |]; rewrite plus_IZR; lra. }
  rewrite Q. destruct (Rlt_dec (IZR n - IZR n) (1 / 2)) as [L|L]; [reflexivity|]. elim L. lra.
Qed.
(** Supercell matrices have integer entries, hence an integer determinant. *)
Definition integral (E : rmat) : Prop := forall i j, i < 3 -> j < 3 -> exists z, E i j = IZR z.
Lemma det_integral E : integral E -> exists n, rdet E = IZR n.
Proof.
  intros H.
  destruct (H 0 0) as [a A]; [lia..|]. destruct (H 0 1) as [b B]; [lia..|]. destruct (H 0 2) as [c C]; [lia..|].
  destruct (H 1 0) as [d D]; [lia..|]. destruct (H 1 1) as [e E']; [lia..|]. destruct (H 1 2) as [f F]; [lia..|].
  destruct (H 2 0) as [g G]; [lia..|]. destruct (H 2 1) as [h HH]; [lia..|]. destruct (H 2 2) as [k K]; [lia..|].
  exists (a * (e * k - f * h) - b * (d * k - f * g) + c * (d * h - e * g))%Z.
  unfold rdet. rewrite A, B, C, D, E', F, G, HH, K. now rewrite plus_IZR, minus_IZR, !mult_IZR, !minus_IZR, !mult_IZR.
Qed.
Lemma kpoints_integral m E n : nums m E -> rdet E = IZR n -> kpoints m = Ok n.
Proof. intros H D. unfold kpoints. rewrite (det_nums m E H), D. now rewrite around_int. Qed.
Lemma energy_of d x n : raw_energy d = Num x -> kpoints (dim d) = Ok n -> (supercell_on d && negb (scelphono_on d))%bool = false ->
  n <> 0%Z -> reported_energy d = Ok (Num (x / IZR n)).
Proof.
  intros X K B N. unfold reported_energy. rewrite B, K. cbn [bind]. destruct (Z.eqb_spec n 0); [contradiction|]. now rewrite X.
Qed.
(** Phonon dispersion: the reported volume and energy, each times the number of
    unit cells in the supercell, are the printed supercell's volume and energy. *)
Theorem C75_per_unit_cell data d v A E x : phonon_load data = Ok (Some d, v) ->
  supercell_on d = true -> scelphono_on d = true ->
  nums (lattice (supercell d)) A -> nums (dim d) E -> integral E -> raw_energy d = Num x ->
  exists vol en, reported_volume d = Num vol /\ reported_energy d = Ok (Num en) /\
    rdet E <> 0%R /\ (vol * rdet E = rdet A)%R /\ (en * rdet E = x)%R.
Proof.
  intros L S0 C0 HA HE I X. destruct (supercell_inv _ _ _ L S0) as (ie & IE & LT & _).
  destruct (inv_nums _ _ _ HE IE) as [ND HI]. destruct (det_integral E I) as [n D].
  assert (N0 : n <> 0%Z) by (intros ->; apply ND; exact D).
  exists (rdet (rmul A (radj E))), (x / IZR n)%R. repeat split; try assumption.
  - unfold reported_volume, reported_cell. rewrite S0, C0, LT. apply det_nums. now apply mul_nums.
  - apply energy_of; try assumption; [now apply (kpoints_integral _ E)|]. now rewrite S0, C0.
  - rewrite rdet_mul. rewrite Rmult_assoc, <- rdet_mul. rewrite (rdet_same _ _ (radj_left E ND)), rdet_id. ring.
  - rewrite D. field. now apply not_0_IZR.
Qed.
(** Gamma-point calculation: the printed cell and the printed energy themselves. *)
Theorem C75_gamma data d v x : phonon_load data = Ok (Some d, v) -> supercell_on d = false -> raw_energy d = Num x ->
  reported_volume d = det3 (lattice (supercell d)) /\ reported_energy d = Ok (Num x).
Proof.
  intros L S0 X. destruct (gamma_inv _ _ _ L S0) as (D & EQ & _). split.
  - unfold reported_volume, reported_cell. now rewrite S0, EQ.
  - assert (K : kpoints (dim d) = Ok 1%Z).
    { rewrite D. apply (kpoints_integral _ id3); [|exact rdet_id]. intros i j Hi Hj. unfold identity3, id3. now destruct (i =? j). }
    rewrite (energy_of d x 1 X K) by (try discriminate; now rewrite S0). do 2 f_equal. field.
Qed.
(** ** The lattice *)
(** The supercell vectors are the rows of E a, for a the rows of the unit cell
    vectors. The reported unit cell is the right one exactly when E and a
    commute... *)
Theorem C75_lattice_iff data d v a A E : phonon_load data = Ok (Some d, v) -> supercell_on d = true ->
  nums (lattice (supercell d)) A -> nums (dim d) E -> same A (rmul E a) ->
  (nums (lattice (unitcell d)) a <-> same (rmul E a) (rmul a E)).
Proof.
  intros L S0 HA HE U. destruct (supercell_inv _ _ _ L S0) as (ie & IE & LT & _).
  destruct (inv_nums _ _ _ HE IE) as [ND HI]. pose proof (mul_nums _ _ _ _ HA HI) as HU. rewrite <- LT in HU. split.
  - intros HN. assert (Q : same a (rmul A (radj E))).
    { intros i j Hi Hj. specialize (HU i j Hi Hj). rewrite HN in HU by assumption. congruence. }
    apply same_trans with (B := A); [now apply same_sym|].
    apply same_sym. apply same_trans with (B := rmul (rmul A (radj E)) E); [apply rmul_same; [exact Q|apply same_refl]|].
    apply same_trans with (B := rmul A (rmul (radj E) E)); [apply rmul_assoc|].
    apply same_trans with (B := rmul A id3); [apply rmul_same; [apply same_refl|now apply radj_left]|apply rmul_id].
  - intros Q i j Hi Hj. rewrite HU by assumption. f_equal.
    assert (W : same (rmul A (radj E)) a); [|exact (W i j Hi Hj)].
    apply same_trans with (B := rmul (rmul a E) (radj E)); [apply rmul_same; [now apply same_trans with (B := rmul E a)|apply same_refl]|].
    apply same_trans with (B := rmul a (rmul E (radj E))); [apply rmul_assoc|].
    apply same_trans with (B := rmul a id3); [apply rmul_same; [apply same_refl|now apply radj_right]|apply rmul_id].
Qed.
(** ... as for the same multiple along all three vectors. *)
Theorem C75_uniform_expansion data d v a A E n : phonon_load data = Ok (Some d, v) -> supercell_on d = true ->
  nums (lattice (supercell d)) A -> nums (dim d) E -> same A (rmul E a) -> same E (fun i j => if i =? j then n else 0%R) ->
  nums (lattice (unitcell d)) a.
Proof.
  intros L S0 HA HE U N. apply (C75_lattice_iff _ _ _ a A E L S0 HA HE U).
  entries; unfold rmul; rewrite !N by lia; cbn [Nat.eqb]; ring.
Qed.
(** ** Where the numbers come from *)
Definition first_line (s : string) (data : list string) (i : nat) : Prop :=
  (exists l, nth_error data i = Some l /\ contains s l = true) /\
  forall k l, k < i -> nth_error data k = Some l -> contains s l = false.
Lemma start_line_first s data i : start_line s data = Some i <-> first_line s data i.
Proof.
  revert i. induction data as [|l r IH]; intros i; cbn [start_line].
  - split; [discriminate|]. intros [(l & N & _) _]. destruct i; discriminate.
  - destruct (contains s l) eqn:C.
    + split.
      * intros [= <-]. split; [exists l; auto|]. intros k x K. lia.
      * intros [_ F]. destruct i as [|i]; [reflexivity|]. specialize (F 0 l ltac:(lia) eq_refl). congruence.
    + destruct i as [|i].
      * split.
        -- destruct (start_line s r); discriminate.
        -- intros [(x & N & D) _]. cbn [nth_error] in N. congruence.
      * specialize (IH i). split.
        -- intros E. destruct (start_line s r) as [k|]; [|discriminate]. cbn [option_map] in E. injection E as ->.
           destruct (proj1 IH eq_refl) as [X F]. split; [exact X|]. intros [|k] x K N; [cbn [nth_error] in N; congruence|].
           apply (F k x); [lia|exact N].
        -- intros [X F]. assert (Q : first_line s r i).
           { split; [exact X|]. intros k x K N. apply (F (S k) x); [lia|exact N]. }
           apply IH in Q. now rewrite Q.
Qed.
Lemma start_line_none s data : start_line s data = None <-> has s data = false.
Proof.
  unfold has. induction data as [|l r IH]; cbn [start_line existsb]; [split; reflexivity|].
  destruct (contains s l); cbn [orb]; [split; discriminate|]. destruct (start_line s r); cbn [option_map]; [|tauto].
  split; [discriminate|]. intros E. apply IH in E. discriminate.
Qed.
(** The k-th word of line i is the number v. *)
Definition number_at (data : list string) (i k : nat) (v : fl) : Prop :=
  exists l t, nth_error data i = Some l /\ nth_error (split l) k = Some t /\ parse_float t = Some v.
(** The words of line i after the first [skip] are three numbers, or one standing for all. *)
Definition row_at (data : list string) (i skip : nat) (r : nat -> fl) : Prop :=
  exists l, nth_error data i = Some l /\ skip <= List.length (split l) /\
    (List.length (split l) = skip + 3 /\ (forall j, j < 3 -> number_at data i (skip + j) (r j)) \/
     List.length (split l) = skip + 1 /\ (forall j, number_at data i skip (r j))).
Lemma row3_inv l r : row3 l = Ok r -> (exists x, l = [x] /\ forall j, r j = x) \/ (exists x y z, l = [x; y; z] /\ r 0 = x /\ r 1 = y /\ r 2 = z).
Proof.
  assert (INJ : forall a b : nat -> fl, Ok a = Ok b -> b = a) by congruence.
  destruct l as [|x [|y [|z [|w l]]]]; cbn [row3]; try discriminate; intros E; apply INJ in E; subst r.
  - left. exists x. auto.
  - right. exists x, y, z. auto.
Qed.
Lemma to_float_ok t v : to_float t = Ok v -> parse_float t = Some v.
Proof. unfold to_float. destruct (parse_float t); congruence. Qed.
Lemma row_reads data i skip l t r vs : nth_error data i = Some l -> skip <= List.length (split l) -> t = skipn skip (split l) ->
  each to_float t = Ok vs -> row3 vs = Ok r -> row_at data i skip r.
Proof.
  intros N K -> E R3. exists l. split; [exact N|]. split; [exact K|].
  destruct (each_nth _ _ _ E) as [LN V].
  assert (LL : List.length (split l) = skip + List.length (skipn skip (split l))) by (rewrite skipn_length; lia).
  assert (NE : forall j t, nth_error (skipn skip (split l)) j = Some t -> nth_error (split l) (skip + j) = Some t).
  { intros j t. clear. revert l. intros l0. generalize (split l0). clear l0. induction skip as [|k IH]; intros l; [auto|].
    destruct l as [|x l]; cbn [skipn]; [destruct j; discriminate|]. intros H. cbn [Nat.add nth_error]. now apply IH. }
  destruct (row3_inv _ _ R3) as [(x & -> & RX)|(x & y & z & -> & R0 & R1 & R2)].
  - right. cbn [List.length] in LN. split; [lia|]. intros j. rewrite RX.
    destruct (nth_error (skipn skip (split l)) 0) as [t|] eqn:T; [|apply nth_error_None in T; lia].
    destruct (V 0 t T) as (y & Y & F). cbn [nth_error] in Y. injection Y as <-.
    exists l, t. repeat split; [exact N|rewrite <- (Nat.add_0_r skip); now apply NE|now apply to_float_ok].
  - left. cbn [List.length] in LN. split; [lia|].
    assert (G : forall j w, nth_error [x; y; z] j = Some w -> number_at data i (skip + j) w).
    { intros j w W. destruct (nth_error (skipn skip (split l)) j) as [t|] eqn:T.
      - destruct (V j t T) as (u & U & F). rewrite W in U. injection U as <-. exists l, t. repeat split; [exact N|now apply NE|now apply to_float_ok].
      - apply nth_error_None in T. assert (j < 3); [|lia]. change 3 with (List.length [x; y; z]). apply nth_error_Some. congruence. }
    apply three; [rewrite R0; now apply (G 0)|rewrite R1; now apply (G 1)|rewrite R2; now apply (G 2)].
Qed.
Lemma tokens_inv data i t : tokens data i = Ok t -> exists l, nth_error data i = Some l /\ t = split l.
Proof. unfold tokens, item. destruct (nth_error data i) as [l|]; cbn [bind]; [|discriminate]. intros [= <-]. eauto. Qed.
Lemma lattice_row_at data i r : lattice_row data i = Ok r -> row_at data i 0 r.
Proof.
  unfold lattice_row. destruct (tokens data i) as [t| |] eqn:T; cbn [bind]; try discriminate.
  destruct (tokens_inv _ _ _ T) as (l & N & ->).
  destruct (each to_float (split l)) as [vs| |] eqn:E; cbn [bind]; try discriminate. intros R3.
  apply (row_reads data i 0 l (split l) r vs N); try assumption; [lia|reflexivity].
Qed.
Lemma expansion_row_at data i r : expansion_row data i = Ok r -> row_at data i 1 r.
Proof.
  unfold expansion_row. destruct (tokens data i) as [t| |] eqn:T; cbn [bind]; try discriminate.
  destruct (tokens_inv _ _ _ T) as (l & N & ->). destruct (split l) as [|t0 t] eqn:SP; [discriminate|].
  destruct (each to_float t) as [vs| |] eqn:E; cbn [bind]; try discriminate. intros R3.
  apply (row_reads data i 1 l t r vs N); try assumption; rewrite SP; [cbn [List.length]; lia|reflexivity].
Qed.
Theorem C75_energy_printed data d v : phonon_load data = Ok (Some d, v) ->
  exists i, first_line central_energy data i /\ number_at data i 2 (raw_energy d).
Proof.
  intros L. apply load_inv in L. destruct L as (_ & _ & _ & _ & E & _). unfold set_energy in E.
  destruct (start_line central_energy data) as [i|] eqn:S0; cbn [found bind] in E; [|discriminate].
  exists i. split; [now apply start_line_first|].
  destruct (tokens data i) as [t| |] eqn:T; cbn [bind] in E; try discriminate. destruct (tokens_inv _ _ _ T) as (l & N & ->).
  unfold item in E. destruct (nth_error (split l) 2) as [w|] eqn:W; cbn [bind] in E; [|discriminate].
  exists l, w. repeat split; try assumption. now apply to_float_ok.
Qed.
Theorem C75_expansion_printed data d v : phonon_load data = Ok (Some d, v) -> supercell_on d = true ->
  exists i, first_line supercell_expansion data i /\ forall r, r < 3 -> row_at data (i + 1 + r) 1 (dim d r).
Proof.
  intros L S0. destruct (supercell_inv _ _ _ L S0) as (_ & _ & _ & _ & E & _). unfold set_expansion in E.
  destruct (start_line supercell_expansion data) as [i|] eqn:SL; cbn [found bind] in E; [|discriminate].
  exists i. split; [now apply start_line_first|]. unfold expansion_at in E.
  destruct (expansion_row data (i + 1)) as [r0| |] eqn:E0; cbn [bind] in E; try discriminate.
  destruct (expansion_row data (i + 1 + 1)) as [r1| |] eqn:E1; cbn [bind] in E; try discriminate.
  destruct (expansion_row data (i + 1 + 2)) as [r2| |] eqn:E2; cbn [bind] in E; try discriminate.
  assert (INJ : forall a b : flmat, Ok a = Ok b -> b = a) by congruence. apply INJ in E. rewrite E.
  apply three; cbn [rows3]; [rewrite Nat.add_0_r| |]; now apply expansion_row_at.
Qed.
(** The lattice of the wave-function geometry: the first one printed after its
    atoms, or zero when there is none. *)
Theorem C75_lattice_printed data d v : phonon_load data = Ok (Some d, v) ->
  exists s, first_line geometry_wf data s /\
    let from := s + 11 + natom (supercell d) in
    (has lattice_vectors (skipn from data) = false /\ lattice (supercell d) = zeros3) \/
    exists k, first_line lattice_vectors (skipn from data) k /\ forall r, r < 3 -> row_at data (from + k + 2 + r) 0 (lattice (supercell d) r).
Proof.
  intros L. assert (W : set_wf_cell data = Ok (supercell d)).
  { destruct (supercell_on d) eqn:S0.
    - now destruct (supercell_inv _ _ _ L S0) as (_ & _ & _ & W & _).
    - destruct (gamma_inv _ _ _ L S0) as (_ & -> & W & _). exact W. }
  unfold set_wf_cell in W. destruct (start_line geometry_wf data) as [s|] eqn:SL; cbn [found bind] in W; [|discriminate].
  exists s. split; [now apply start_line_first|]. unfold cell_at in W.
  destruct (tokens data (s + 8)) as [t| |]; cbn [bind] in W; try discriminate.
  destruct (let? s := item_end t 1 in count s) as [n| |]; cbn [bind] in W; try discriminate.
  destruct (atoms data (s + 11) n) as [a| |]; cbn [bind] in W; try discriminate.
  destruct (lattice_from data (s + 11 + n)) as [m| |] eqn:M; cbn [bind] in W; try discriminate.
  assert (INJ : forall a b : cell, Ok a = Ok b -> b = a) by congruence. apply INJ in W. rewrite W. cbn [natom lattice]. cbv zeta.
  unfold lattice_from in M. destruct (start_line lattice_vectors (skipn (s + 11 + n) data)) as [k|] eqn:K.
  - right. exists k. split; [now apply start_line_first|]. unfold lattice_at in M.
    destruct (lattice_row data (s + 11 + n + k + 2)) as [r0| |] eqn:E0; cbn [bind] in M; try discriminate.
    destruct (lattice_row data (s + 11 + n + k + 3)) as [r1| |] eqn:E1; cbn [bind] in M; try discriminate.
    destruct (lattice_row data (s + 11 + n + k + 4)) as [r2| |] eqn:E2; cbn [bind] in M; try discriminate.
    assert (INJ' : forall a b : flmat, Ok a = Ok b -> b = a) by congruence. apply INJ' in M. rewrite M.
    apply three; cbn [rows3].
    + rewrite Nat.add_0_r. now apply lattice_row_at.
    + replace (s + 11 + n + k + 2 + 1) with (s + 11 + n + k + 3) by lia. now apply lattice_row_at.
    + replace (s + 11 + n + k + 2 + 2) with (s + 11 + n + k + 4) by lia. now apply lattice_row_at.
  - left. split; [now apply start_line_none|]. congruence.
Qed.
(** ** Bands of a completed reading *)
Theorem C75_modes data d v : phonon_load data = Ok (Some d, v) -> 1 <= qpoints (mesh d) ->
  List.length (phonons d) = Nat.min (qpoints (mesh d)) (List.length (header_lines data)) /\
  Forall (fun b => List.length b = 3 * reported_natom d) (phonons d).
Proof.
  intros L Q. apply load_inv in L. destruct L as (_ & _ & _ & _ & _ & P & _).
  pose proof P as P'. apply C57_band_order in P; [|exact Q]. destruct P as [LN _]. split; [exact LN|].
  rewrite C57_bands in P' by exact Q. apply each_ok in P'. apply Forall_forall. intros b I.
  clear LN. induction P' as [|x y l ys F _ IH]; [destruct I|]. destruct I as [<-|I]; [|now apply IH].
  apply C57_stops_iff in F. destruct F as (? & ? & ? & ? & ? & ? & LB). unfold nphonon in LB. unfold reported_natom. lia.
Qed.
(** A supercell run that prints no q mesh (SUPERCELL without SCELPHONO) is never read. *)
Theorem C75_supercell_without_mesh data : has supercell_option data = true ->
  has hess_interpolation data = false -> has scelphono_qpoints data = false ->
  phonon_load data = Ok (None, NotFrequencies) \/ exists e, phonon_load data = Raises e.
Proof.
  intros S0 H Q. unfold phonon_load. destruct (has frequency_calculation data); cbn [negb]; [right|left; reflexivity].
  assert (G : exists e, geometry data = Raises e); [|destruct G as [e G]; rewrite G; exists e; reflexivity].
  assert (NH : forall A (r : res A), r <> Hangs -> (exists a, r = Ok a) \/ exists e, r = Raises e) by (intros A [a|e|] N; eauto; congruence).
  assert (QM : set_q_mesh data = Raises "TypeError").
  { unfold set_q_mesh. apply start_line_none in H, Q. now rewrite H, Q. }
  unfold geometry. rewrite S0.
  assert (EH : forall A B (f : A -> res B) l, (forall x, f x <> Hangs) -> each f l <> Hangs).
  { intros A B f l N. induction l as [|x l IH]; cbn [each]; [discriminate|]. destruct (f x) eqn:F; cbn [bind]; try discriminate; [|now elim (N x)].
    destruct (each f l); cbn [bind]; congruence. }
  assert (TF : forall s, to_float s <> Hangs) by (intros s; unfold to_float; destruct (parse_float s); discriminate).
  assert (TI : forall s, to_int s <> Hangs) by (intros s; unfold to_int; destruct (parse_int s); discriminate).
  assert (IT : forall A (l : list A) k, item l k <> Hangs) by (intros A l k; unfold item; destruct (nth_error l k); discriminate).
  assert (IE : forall A (l : list A) k, item_end l k <> Hangs) by (intros A l k; unfold item_end; destruct (k <=? List.length l); [apply IT|discriminate]).
  assert (BH : forall A B (r : res A) (f : A -> res B), r <> Hangs -> (forall a, f a <> Hangs) -> bind r f <> Hangs) by (intros A B [a|e|] f N F; cbn [bind]; [apply F|discriminate|congruence]).
  assert (FO : forall A (o : option A), found o <> Hangs) by (intros A [a|]; discriminate).
  assert (TK : forall d i, tokens d i <> Hangs) by (intros; apply BH; [apply IT|discriminate]).
  assert (CT : forall s, count s <> Hangs) by (intros; apply BH; [apply TI|intros a; destruct (a <? 0)%Z; discriminate]).
  assert (AT : forall d a n, atoms d a n <> Hangs).
  { intros d a n. apply EH. intros x. apply BH; [apply TK|]. intros t. apply BH; [apply BH; [apply IT|intros; apply TI]|]. intros z.
    apply BH; [|discriminate]. apply EH. intros j. apply BH; [apply IT|intros; apply TF]. }
  assert (R3 : forall l, row3 l <> Hangs) by (intros [|? [|? [|? [|? ?]]]]; discriminate).
  assert (WC : set_wf_cell data <> Hangs).
  { apply BH; [apply FO|]. intros s. apply BH; [apply TK|]. intros t. apply BH; [apply BH; [apply IE|intros; apply CT]|]. intros n.
    apply BH; [apply AT|]. intros a. apply BH; [|discriminate]. unfold lattice_from. destruct (start_line lattice_vectors _); [|discriminate].
    assert (LR : forall i, lattice_row data i <> Hangs) by (intros i; apply BH; [apply TK|]; intros; apply BH; [apply EH, TF|intros; apply R3]).
    unfold lattice_at. repeat (apply BH; [apply LR|intros]). discriminate. }
  assert (IC : set_init_cell data <> Hangs).
  { apply BH; [apply FO|]. intros s. apply BH; [apply TK|]. intros t. apply BH; [apply BH; [apply IE|intros; apply CT]|]. intros n.
    apply BH; [apply AT|discriminate]. }
  assert (EX : set_expansion data <> Hangs).
  { apply BH; [apply FO|]. intros s.
    assert (LR : forall i, expansion_row data i <> Hangs).
    { intros i; apply BH; [apply TK|]. intros [|t0 t]; [discriminate|]. apply BH; [apply EH, TF|intros; apply R3]. }
    unfold expansion_at. repeat (apply BH; [apply LR|intros]). discriminate. }
  assert (IV : forall m, inv3 m <> Hangs) by (intros m; unfold inv3; destruct (det3 m) as [x|]; [destruct (Req_EM_T x 0)|]; discriminate).
  destruct (NH _ _ WC) as [[s ->]|[e ->]]; cbn [bind]; [|eauto].
  destruct (NH _ _ IC) as [[u ->]|[e ->]]; cbn [bind]; [|eauto].
  destruct (NH _ _ EX) as [[m ->]|[e ->]]; cbn [bind]; [|eauto].
  destruct (NH _ _ (IV m)) as [[im ->]|[e ->]]; cbn [bind]; [|eauto].
  rewrite QM. eexists; reflexivity.
Qed.

(** ** A case: 2x1x1 supercell of a monoclinic cell with one atom, two q points *)
Definition out_head : list string :=
  [" * SUPERCELL OPTION";
   " GEOMETRY NOW FULLY CONSISTENT WITH THE GROUP"; ""; ""; ""; ""; ""; ""; " ATOMS IN THE ASYMMETRIC UNIT 1 - ATOMS IN THE UNIT CELL: 1"; ""; "";
   "   1 T 14 SI 0.0 0.0 0.0"; "";
   " EXPANSION MATRIX OF PRIMITIVE CELL"; " E1 2 0 0"; " E2 0 1 0"; " E3 0 0 1";
   " GEOMETRY FOR WAVE FUNCTION - DIMENSIONALITY"; ""; ""; ""; ""; ""; ""; ""; " ATOMS IN THE UNIT CELL: 2"; ""; "";
   "   1 T 14 SI 0.0 0.0 0.0"; "   2 F 14 SI 0.5 0.0 0.0"; "";
   " DIRECT LATTICE VECTORS CARTESIAN COMPONENTS (ANGSTROM)"; "  X Y Z"; "  4 0 0"; "  -1 2 0"; "  0 0 2";
   " PHONON FREQUENCIES AT A SET OF K POINTS BY USING A SUPERCELL";
   " THAT PERMITS THE CALCULATION OF MODES AT 2 K POINTS TOTAL";
   "    CENTRAL POINT  -10   1";
   "   K       WEIGHT       COORD"; " 1 - 1 0 0 0"; " 2 - 1 1 0 0"; " WITH SHRINKING FACTORS: IS1 = x 2 IS2 = 1 IS3 = 1";
   " EIGENVALUES (EIGV) OF THE MASS WEIGHTED HESSIAN MATRIX AND HARMONIC"].
Definition out_table : list string :=
  ["    MODES         EIGV          FREQUENCIES     IRREP"; ""; "  1- 2  0 215 6 (E)"; "  3- 3  0 210 6 (A)"; ""].
Definition out (tables : nat) : list string := out_head ++ concat (repeat out_table tables).
Definition whole (z : Z) : fl := Num (1 * IZR z * powerRZ 10 0).
Definition row (x y z : fl) : nat -> fl := fun j => nth j [x; y; z] NaN.
Definition m1 : fl := Num (-1 * IZR 1 * powerRZ 10 0).
Definition out_super : cell :=
  {| natom := 2; numbers := [14%Z; 14%Z]; positions := [[literal false "0" "0" 0; literal false "0" "0" 0; literal false "0" "0" 0];
       [literal false "0" "5" 0; literal false "0" "0" 0; literal false "0" "0" 0]];
     lattice := rows3 (row (whole 4) (whole 0) (whole 0)) (row m1 (whole 2) (whole 0)) (row (whole 0) (whole 0) (whole 2)) |}.
Definition out_unit0 : cell :=
  {| natom := 1; numbers := [14%Z]; positions := [[literal false "0" "0" 0; literal false "0" "0" 0; literal false "0" "0" 0]];
     lattice := zeros3 |}.
Definition out_dim : flmat := rows3 (row (whole 2) (whole 0) (whole 0)) (row (whole 0) (whole 1) (whole 0)) (row (whole 0) (whole 0) (whole 1)).
Definition out_mesh : qmesh :=
  {| qpoints := 2; qcoords := [[whole 0; whole 0; whole 0]; [whole 1; whole 0; whole 0]]; qweights := [whole 1; whole 1]; shrink := [whole 2; whole 1; whole 1] |}.
Definition out_band : list fl := [whole 215; whole 215; whole 210].

Definition out_unit (ie : flmat) : cell := {| natom := 1; numbers := numbers out_unit0; positions := positions out_unit0; lattice := dot3 (lattice out_super) ie |}.
Definition out_data (ie : flmat) (bands : nat) : phonon_data :=
  {| supercell_on := true; scelphono_on := true; unitcell := out_unit ie; supercell := out_super; dim := out_dim; mesh := out_mesh;
     raw_energy := Num (-1 * IZR 10 * powerRZ 10 0); phonons := repeat out_band bands |}.
Definition out_A : rmat := fun i j => match i, j with 0, 0 => 4 | 1, 0 => -1 | 1, 1 => 2 | 2, 2 => 2 | _, _ => 0 end%R.
Definition out_E : rmat := fun i j => match i, j with 0, 0 => 2 | 1, 1 => 1 | 2, 2 => 1 | _, _ => 0 end%R.
(** the true unit cell *)
Definition out_a : rmat := fun i j => match i, j with 0, 0 => 2 | 1, 0 => -1 | 1, 1 => 2 | 2, 2 => 2 | _, _ => 0 end%R.
Lemma out_nums_A : nums (lattice out_super) out_A.
Proof. entries; cbv [lattice out_super rows3 row nth whole m1 out_A powerRZ]; f_equal; ring. Qed.
Lemma out_nums_E : nums out_dim out_E.
Proof. entries; cbv [out_dim rows3 row nth whole out_E powerRZ]; f_equal; ring. Qed.
Lemma out_det_E : rdet out_E = 2%R.
Proof. unfold rdet, out_E. ring. Qed.
Lemma out_loads bands : bands = 1 \/ bands = 2 -> exists ie, phonon_load (out bands) = Ok (Some (out_data ie bands), Completed).
Proof.
  intros B. destruct (inv_regular out_dim out_E out_nums_E) as [ie IE]; [rewrite out_det_E; lra|]. exists ie.
  assert (H1 : set_wf_cell (out bands) = Ok out_super) by (destruct B as [->| ->]; text).
  assert (H2 : set_init_cell (out bands) = Ok out_unit0) by (destruct B as [->| ->]; text).
  assert (H3 : set_expansion (out bands) = Ok out_dim) by (destruct B as [->| ->]; text).
  assert (H4 : set_q_mesh (out bands) = Ok out_mesh) by (destruct B as [->| ->]; text).
  assert (H5 : set_energy (out bands) = Ok (Num (-1 * IZR 10 * powerRZ 10 0))) by (destruct B as [->| ->]; text).
  assert (H6 : set_phonons (out bands) 3 2 = Ok (repeat out_band bands)) by (destruct B as [->| ->]; text).
  assert (F : has frequency_calculation (out bands) = true /\ has supercell_option (out bands) = true /\ has scelphono_option (out bands) = true)
    by (destruct B as [->| ->]; repeat split; text). destruct F as (F1 & F2 & F3).
  assert (G : geometry (out bands) = Ok (out_unit ie, out_super, out_dim, out_mesh)).
  { unfold geometry. rewrite F2, H1. cbn [bind]. rewrite H2. cbn [bind]. rewrite H3. cbn [bind]. rewrite IE. cbn [bind]. rewrite H4. reflexivity. }
  assert (CK : check (out_data ie bands) = Ok Completed).
  { assert (KP : kpoints (dim (out_data ie bands)) = Ok 2%Z) by (cbn [dim out_data]; apply (kpoints_integral _ out_E _ out_nums_E); exact out_det_E).
    assert (RE := energy_of (out_data ie bands) _ 2 eq_refl KP eq_refl ltac:(discriminate)).
    unfold check. rewrite RE. cbn [bind is_zero].
    destruct (Req_EM_T (-1 * 10 * powerRZ 10 0 / 2) 0) as [Q|_]; [cbn [powerRZ] in Q; lra|].
    assert (LA : any3 (lattice (reported_cell (out_data ie bands))) = true).
    { destruct (inv_nums _ _ _ out_nums_E IE) as [ND HI]. pose proof (mul_nums _ _ _ _ out_nums_A HI) as HU.
      change (lattice (reported_cell (out_data ie bands))) with (dot3 (lattice out_super) ie).
      unfold any3. cbn [seq forallb]. rewrite (HU 0 0) by lia. cbn [is_zero].
      destruct (Req_EM_T (rmul out_A (radj out_E) 0 0) 0) as [Q|_]; [|reflexivity].
      unfold rmul, radj in Q. rewrite out_det_E in Q. cbv [out_A out_E] in Q. cbn in Q. lra. }
    rewrite LA. cbn [negb]. destruct B as [->| ->]; reflexivity. }
  unfold phonon_load. rewrite F1. cbn [negb]. rewrite G. cbn [bind]. rewrite H5. cbn [bind]. rewrite F2, F3. cbn [supercell_on scelphono_on].
  match goal with |- context [nphonon ?d] => change (nphonon d) with 3 end. cbn [qpoints out_mesh]. rewrite H6. cbn [bind].
  fold (out_data ie bands). change {| supercell_on := true; scelphono_on := true; unitcell := out_unit ie; supercell := out_super; dim := out_dim;
     mesh := out_mesh; raw_energy := Num (-1 * IZR 10 * powerRZ 10 0); phonons := repeat out_band bands |} with (out_data ie bands).
  rewrite CK. reflexivity.
Qed.
Example C75_instance : exists d, phonon_load (out 2) = Ok (Some d, Completed) /\
  supercell_on d = true /\ scelphono_on d = true /\ nums (lattice (supercell d)) out_A /\ nums (dim d) out_E /\ integral out_E /\
  same out_A (rmul out_E out_a) /\ reported_energy d = Ok (Num (-5)) /\ rdet out_a = 8%R /\ List.length (phonons d) = 2.
Proof.
  destruct (out_loads 2 (or_intror eq_refl)) as [ie L]. exists (out_data ie 2). split; [exact L|]. split; [reflexivity|]. split; [reflexivity|].
  split; [exact out_nums_A|]. split; [exact out_nums_E|]. assert (I : integral out_E).
  { entries; [exists 2%Z|exists 0%Z|exists 0%Z|exists 0%Z|exists 1%Z|exists 0%Z|exists 0%Z|exists 0%Z|exists 1%Z]; reflexivity. }
  split; [exact I|]. split; [entries; cbv [rmul out_A out_E out_a]; ring|]. split.
  - destruct (C75_per_unit_cell _ _ _ out_A out_E (-10) L eq_refl eq_refl out_nums_A out_nums_E I) as (vol & en & _ & RE & _ & _ & E2).
    + cbn [raw_energy out_data powerRZ]. f_equal. ring.
    + rewrite RE. do 2 f_equal. rewrite out_det_E in E2. lra.
  - split; [unfold rdet, out_a; ring|reflexivity].
Qed.
(** The unit cell reported for this file is not the one the supercell was made of. *)
Theorem C75_lattice_refuted : exists data d a A E, phonon_load data = Ok (Some d, Completed) /\ supercell_on d = true /\
  nums (lattice (supercell d)) A /\ nums (dim d) E /\ same A (rmul E a) /\ ~ nums (lattice (unitcell d)) a.
Proof.
  destruct (out_loads 2 (or_intror eq_refl)) as [ie L]. exists (out 2), (out_data ie 2), out_a, out_A, out_E.
  assert (U : same out_A (rmul out_E out_a)) by (entries; cbv [rmul out_A out_E out_a]; ring).
  repeat (split; [first [exact L|reflexivity|exact out_nums_A|exact out_nums_E|exact U]|]).
  intros H. apply (C75_lattice_iff _ _ _ out_a out_A out_E L eq_refl out_nums_A out_nums_E U) in H.
  specialize (H 1 0 ltac:(lia) ltac:(lia)). cbv [rmul out_E out_a] in H. lra.
Qed.
(** A file with two q points but only one table is called complete. *)
Theorem C75_missing_bands_refuted : exists data d, phonon_load data = Ok (Some d, Completed) /\
  qpoints (mesh d) = 2 /\ List.length (phonons d) = 1.
Proof. destruct (out_loads 1 (or_introl eq_refl)) as [ie L]. exists (out 1), (out_data ie 1). auto. Qed.
Example C75_without_mesh_instance : let f := [" * SUPERCELL OPTION"; " EIGENVALUES (EIGV) OF THE MASS WEIGHTED HESSIAN MATRIX AND HARMONIC"] in
  has supercell_option f = true /\ has hess_interpolation f = false /\ has scelphono_qpoints f = false /\ phonon_load f = Raises "TypeError".
Proof. repeat split; text. Qed.

Print Assumptions C75_per_unit_cell.
Print Assumptions C75_gamma.
Print Assumptions C75_lattice_iff.
Print Assumptions C75_uniform_expansion.
Print Assumptions C75_energy_printed.
Print Assumptions C75_expansion_printed.
Print Assumptions C75_lattice_printed.
Print Assumptions C75_modes.
Print Assumptions C75_supercell_without_mesh.
Print Assumptions C75_lattice_refuted.
Print Assumptions C75_missing_bands_refuted.
