(** Properties C35, C36, C37 and the elastic part of C38. *)
From Coq Require Import Reals String Ascii List Bool Arith ZArith NArith Lia Lra.
From Verif Require Import Py DecimalModel DecimalProofs SoecIOModel.
Import ListNotations.
Open Scope string_scope.
Open Scope list_scope.

(** ** Vocabulary: what the lines of a file say *)
Definition denotes (line : string) (xs : list fl) : Prop := Forall2 (fun t x => parse_float t = Some x) (split line) xs.
Definition first_char (line : string) : option ascii := match strip line with String a _ => Some a | EmptyString => None end.
Definition titled (line : string) : Prop := exists a, first_char line = Some a /\ is_digit a = false.
Definition starts_with_digit (line : string) : Prop := exists a, first_char line = Some a /\ is_digit a = true.
(** Lines before the matrix: one title, or nothing when the matrix starts with a digit. *)
Definition header (pre rows : list string) : Prop :=
  (exists t, pre = [t] /\ titled t) \/ (pre = [] /\ starts_with_digit (nth 0 rows "")).
Definition title_of (pre : list string) (old : string) : string := match pre with t :: _ => rstrip t | [] => old end.
Definition density_of (rest : list string) (old : fl) : option fl :=
  match rest with [] => Some old | l :: _ => match split l with [] => Some old | t :: _ => parse_float t end end.

Lemma Forall2_length {A B} (P : A -> B -> Prop) l l' : Forall2 P l l' -> List.length l = List.length l'.
Proof. induction 1; simpl; congruence. Qed.
Lemma store_right row j n toks xs : (n <= 6)%nat -> (j + List.length toks = n)%nat ->
  Forall2 (fun t x => parse_float t = Some x) toks xs ->
  exists row', store row j n toks = Ok row' /\
    forall c, (c < 6)%nat -> row' c = if (c <? j + (6 - n))%nat then row c else nth (c - (j + (6 - n))) xs (Num 0).
Proof.
  intros Hn. revert row j xs. induction toks as [|t r IH]; intros row j xs Hj F; simpl in Hj;
    [inversion F; subst xs|inversion F as [|t0 y r0 l' H1 H3]; subst t0 r0 xs].
  - exists row. split; [reflexivity|]. intros c Hc. destruct (Nat.ltb_spec c (j + (6 - n))); [reflexivity|lia].
  - cbn [store]. unfold py_index.
    destruct (Z.leb_spec 0 (Z.of_nat j + (6 - Z.of_nat n))); [|lia].
    destruct (Z.ltb_spec (Z.of_nat j + (6 - Z.of_nat n)) 6); [|lia].
    rewrite H1. set (k := Z.to_nat (Z.of_nat j + (6 - Z.of_nat n))).
    assert (Hk : k = (j + (6 - n))%nat) by (unfold k; lia).
    destruct (IH (fun q => if (q =? k)%nat then y else row q) (S j) l' ltac:(lia) H3) as (row' & E & V).
    exists row'. split; [exact E|]. intros c Hc. rewrite (V c Hc). rewrite Hk.
    destruct (Nat.ltb_spec c (S j + (6 - n))); destruct (Nat.ltb_spec c (j + (6 - n))).
    + destruct (Nat.eqb_spec c (j + (6 - n))); [lia|reflexivity].
    + assert (c = j + (6 - n))%nat by lia. subst c. rewrite Nat.eqb_refl, Nat.sub_diag. reflexivity.
    + lia.
    + replace (c - (j + (6 - n)))%nat with (S (c - (S j + (6 - n)))) by lia. reflexivity.
Qed.
Definition placed (xs : list fl) (c : nat) : fl :=
  if (c <? 6 - List.length xs)%nat then Num 0 else nth (c - (6 - List.length xs)) xs (Num 0).
Lemma read_row_placed line xs : denotes line xs -> (List.length xs <= 6)%nat ->
  exists row, read_row line = Ok row /\ forall c, (c < 6)%nat -> row c = placed xs c.
Proof.
  intros D L. unfold read_row. pose proof (Forall2_length _ _ _ D) as E.
  destruct (store_right (fun _ => Num 0) 0 (List.length (split line)) (split line) xs) as (row & S & V); try assumption; try lia; try reflexivity.
  exists row. split; [exact S|]. intros c Hc. rewrite V by exact Hc. unfold placed. rewrite E. reflexivity.
Qed.
Lemma read_rows_placed rows xss : Forall2 denotes rows xss -> Forall (fun xs => (List.length xs <= 6)%nat) xss ->
  exists rs, read_rows rows = Ok rs /\ List.length rs = List.length rows /\
    forall i c, (i < List.length rows)%nat -> (c < 6)%nat -> to_mat rs i c = placed (nth i xss []) c.
Proof.
  intros F. induction F as [|l xs rows xss D F IH]; intros L.
  - exists []. split; [reflexivity|]. split; [reflexivity|]. simpl; lia.
  - inversion L; subst. destruct (read_row_placed l xs D) as (row & Er & Vr); [assumption|]. destruct (IH H2) as (rs & Es & Ls & Vs).
    exists (row :: rs). cbn [read_rows]. rewrite Er, Es. split; [reflexivity|]. split; [simpl; congruence|].
    intros i c Hi Hc. destruct i as [|i]; [apply Vr; exact Hc|]. apply (Vs i c); [simpl in Hi; lia|exact Hc].
Qed.
Lemma denotes_length l xs : denotes l xs -> List.length (split l) = List.length xs.
Proof. apply Forall2_length. Qed.
Lemma forms rows xss : Forall2 denotes rows xss -> List.map (fun l => List.length (split l)) rows = List.map (@List.length fl) xss.
Proof. induction 1; simpl; [reflexivity|]. f_equal; [now apply denotes_length|assumption]. Qed.
Lemma load_shape pre rows rest d : header pre rows -> List.length rows = 6%nat ->
  load (pre ++ rows ++ rest) d =
  let d := set_job d (title_of pre (job d)) in
  match read_rows rows with
  | IndexError => (d, Raised "IndexError")
  | ValueError => (d, Failed E_float)
  | Ok rs =>
      let m := complete (List.map (fun l => List.length (split l)) rows) (to_mat rs) in
      if refused m then (d, Failed E_sym) else
      match density_of rest (density d) with
      | Some x => (set_density (set_stiffness d m) x, Completed)
      | None => (set_stiffness d m, Failed E_density)
      end
  end.
Proof.
  intros H L. unfold load.
  assert (LL : (List.length (pre ++ rows ++ rest) <? 6)%nat = false) by (apply Nat.ltb_ge; rewrite !app_length; lia).
  rewrite LL.
  assert (NR : nth_error (rows ++ rest) 6 = match rest with [] => None | l :: _ => Some l end).
  { rewrite nth_error_app2 by lia. rewrite L. cbn. destruct rest; reflexivity. }
  assert (FR : firstn 6 (rows ++ rest) = rows) by (rewrite firstn_app, L, firstn_all2, app_nil_r by lia; reflexivity).
  assert (DD : set_job d (job d) = d) by (destruct d; reflexivity).
  destruct H as [(t & -> & a & Ha & Da)|(-> & a & Ha & Da)].
  - cbn [app nth]. unfold first_char in Ha. destruct (strip t) as [|b s]; [discriminate|]. injection Ha as ->. rewrite Da.
    replace (List.length (t :: rows ++ rest) <? 1 + 6)%nat with false by (symmetry; apply Nat.ltb_ge; simpl; rewrite app_length; lia).
    change (skipn 1 (t :: rows ++ rest)) with (rows ++ rest). rewrite FR.
    change (nth_error (t :: rows ++ rest) (1 + 6)) with (nth_error (rows ++ rest) 6). rewrite NR. cbn [title_of]. cbv zeta.
    destruct (read_rows rows); try reflexivity. destruct (refused _); [reflexivity|].
    unfold density_of. destruct rest as [|l rest]; [reflexivity|]. destruct (split l); [reflexivity|].
    destruct (parse_float s0); reflexivity.
  - cbn [app title_of]. rewrite DD. replace (nth 0 (rows ++ rest) "") with (nth 0 rows "") by (rewrite app_nth1 by lia; reflexivity).
    unfold first_char in Ha. destruct (strip (nth 0 rows "")) as [|b s]; [discriminate|]. injection Ha as ->. rewrite Da.
    replace (List.length (rows ++ rest) <? 0 + 6)%nat with false by (symmetry; apply Nat.ltb_ge; rewrite app_length; lia).
    cbn [skipn Nat.add]. rewrite FR, NR. cbv zeta.
    destruct (read_rows rows); try reflexivity. destruct (refused _); [reflexivity|].
    unfold density_of. destruct rest as [|l rest]; [destruct d; reflexivity|]. destruct (split l); [destruct d; reflexivity|].
    destruct (parse_float s0); reflexivity.
Qed.

(** ** The symmetry test *)
Definition entry (x : nat -> nat -> R) (i j : nat) : R := ((x i j - x j i) * (x i j - x j i))%R.
Definition entries (x : nat -> nat -> R) : list R := flat_map (fun i => List.map (entry x i) six) six.
Definition total (l : list R) : R := fold_right Rplus 0%R l.
Lemma asymmetry_num m x : (forall i j, (i < 6)%nat -> (j < 6)%nat -> m i j = Num (x i j)) -> asymmetry2 m = Num (total (entries x)).
Proof.
  intros H. unfold asymmetry2, entries, total, six, entry. cbn [seq flat_map List.map app fold_right].
  rewrite !H by lia. reflexivity.
Qed.
Lemma total_nonneg l : Forall (fun y => 0 <= y)%R l -> (0 <= total l)%R.
Proof. induction 1; unfold total in *; simpl; lra. Qed.
Lemma total_in l y : Forall (fun y => 0 <= y)%R l -> In y l -> (y <= total l)%R.
Proof.
  induction 1 as [|a l Ha F IH]; [intros []|]. unfold total in *. simpl. pose proof (total_nonneg l F). unfold total in *.
  intros [->|K]; [lra|]. specialize (IH K). lra.
Qed.
Lemma entries_nonneg x : Forall (fun y => 0 <= y)%R (entries x).
Proof.
  apply Forall_forall. intros y K. apply in_flat_map in K. destruct K as (i & _ & K). apply in_map_iff in K.
  destruct K as (j & <- & _). unfold entry. apply Rle_0_sqr.
Qed.
Lemma entries_in x i j : (i < 6)%nat -> (j < 6)%nat -> In (entry x i j) (entries x).
Proof.
  intros. apply in_flat_map. exists i. split; [apply in_seq; lia|]. apply in_map. apply in_seq; lia.
Qed.
Lemma refused_false_sym m x : (forall i j, (i < 6)%nat -> (j < 6)%nat -> m i j = Num (x i j)) ->
  (forall i j, (i < 6)%nat -> (j < 6)%nat -> x i j = x j i) -> refused m = false.
Proof.
  intros H S. unfold refused. rewrite (asymmetry_num m x H).
  assert (Z : total (entries x) = 0%R).
  { unfold entries, total, six, entry. cbn [seq flat_map List.map app fold_right].
    rewrite (S 1 0)%nat, (S 2 0)%nat, (S 3 0)%nat, (S 4 0)%nat, (S 5 0)%nat, (S 2 1)%nat, (S 3 1)%nat, (S 4 1)%nat, (S 5 1)%nat,
      (S 3 2)%nat, (S 4 2)%nat, (S 5 2)%nat, (S 4 3)%nat, (S 5 3)%nat, (S 5 4)%nat by lia. ring. }
  rewrite Z, sqrt_0. destruct (Rlt_dec 1e-3 0); [lra|reflexivity].
Qed.
Lemma refused_iff m x : (forall i j, (i < 6)%nat -> (j < 6)%nat -> m i j = Num (x i j)) ->
  (refused m = true <-> (1e-3 < sqrt (total (entries x)))%R).
Proof.
  intros H. unfold refused. rewrite (asymmetry_num m x H). destruct (Rlt_dec 1e-3 (sqrt (total (entries x)))); split; congruence || contradiction || auto.
Qed.

(** ** C35 *)
Definition upper_rows (c : nat -> nat -> R) : list (list fl) := List.map (fun i => List.map (fun j => Num (c i j)) (seq i (6 - i))) six.
Definition full_rows (c : nat -> nat -> R) : list (list fl) := List.map (fun i => List.map (fun j => Num (c i j)) six) six.
Definition lower_rows (c : nat -> nat -> R) : list (list fl) := List.map (fun i => List.map (fun j => Num (c i j)) (seq 0 (i + 1))) six.
Lemma rows_length rows xss : Forall2 denotes rows xss -> List.length xss = 6%nat -> List.length rows = 6%nat.
Proof. intros F L. rewrite (Forall2_length _ _ _ F). exact L. Qed.
Ltac six_index i := destruct i as [|[|[|[|[|[|i]]]]]]; [| | | | | |lia].

(** A full symmetric matrix is read as itself. *)
Theorem C35_full c pre rows rest d rho :
  header pre rows -> Forall2 denotes rows (full_rows c) -> density_of rest (density d) = Some rho ->
  (forall i j, (i < 6)%nat -> (j < 6)%nat -> c i j = c j i) ->
  exists m, load (pre ++ rows ++ rest) d = ({| job := title_of pre (job d); stiffness := Some m; density := rho |}, Completed) /\
    forall i j, (i < 6)%nat -> (j < 6)%nat -> m i j = Num (c i j).
Proof.
  intros H F D S. pose proof (rows_length _ _ F eq_refl) as L.
  destruct (read_rows_placed rows _ F) as (rs & E & _ & V).
  { repeat apply Forall_cons; try apply Forall_nil; simpl; lia. }
  rewrite (load_shape pre rows rest d H L), E, (forms _ _ F). cbv zeta.
  change (List.map (@List.length fl) (full_rows c)) with [6; 6; 6; 6; 6; 6]%nat. unfold complete.
  change (eq_form [6; 6; 6; 6; 6; 6] [6; 5; 4; 3; 2; 1]%nat) with false.
  change (eq_form [6; 6; 6; 6; 6; 6] [1; 2; 3; 4; 5; 6]%nat) with false. cbv iota.
  assert (M : forall i j, (i < 6)%nat -> (j < 6)%nat -> to_mat rs i j = Num (c i j)).
  { intros i j Hi Hj. rewrite V by lia. six_index i; six_index j; reflexivity. }
  rewrite (refused_false_sym _ c M S). cbn [set_job density]. rewrite D. exists (to_mat rs). split; [reflexivity|exact M].
Qed.
(** The upper triangle is read as the symmetric matrix it denotes. *)
Theorem C35_upper c pre rows rest d rho :
  header pre rows -> Forall2 denotes rows (upper_rows c) -> density_of rest (density d) = Some rho ->
  exists m, load (pre ++ rows ++ rest) d = ({| job := title_of pre (job d); stiffness := Some m; density := rho |}, Completed) /\
    forall i j, (i < 6)%nat -> (j < 6)%nat -> m i j = Num (c (Nat.min i j) (Nat.max i j)).
Proof.
  intros H F D. pose proof (rows_length _ _ F eq_refl) as L.
  destruct (read_rows_placed rows _ F) as (rs & E & _ & V).
  { repeat apply Forall_cons; try apply Forall_nil; simpl; lia. }
  rewrite (load_shape pre rows rest d H L), E, (forms _ _ F). cbv zeta.
  change (List.map (@List.length fl) (upper_rows c)) with [6; 5; 4; 3; 2; 1]%nat. unfold complete.
  change (eq_form [6; 5; 4; 3; 2; 1] [6; 5; 4; 3; 2; 1]%nat) with true.
  change (eq_form [6; 5; 4; 3; 2; 1] [1; 2; 3; 4; 5; 6]%nat) with false. cbv iota zeta.
  assert (M : forall i j, (i < 6)%nat -> (j < 6)%nat ->
    madd (to_mat rs) (transpose (triu1 (to_mat rs))) i j = Num (c (Nat.min i j) (Nat.max i j))).
  { intros i j Hi Hj. unfold madd, transpose, triu1. rewrite !V by lia.
    six_index i; six_index j; cbn; f_equal; ring. }
  rewrite (refused_false_sym _ (fun i j => c (Nat.min i j) (Nat.max i j)) M).
  2: { intros i j _ _. now rewrite Nat.min_comm, Nat.max_comm. }
  cbn [set_job density]. rewrite D. eexists. split; [reflexivity|exact M].
Qed.
(** So the two forms of one matrix are interchangeable. *)
Theorem C35_forms_agree c pre rows rows' rest d rho :
  header pre rows -> header pre rows' -> Forall2 denotes rows (full_rows c) -> Forall2 denotes rows' (upper_rows c) ->
  density_of rest (density d) = Some rho -> (forall i j, (i < 6)%nat -> (j < 6)%nat -> c i j = c j i) ->
  let a := load (pre ++ rows ++ rest) d in let b := load (pre ++ rows' ++ rest) d in
  snd a = snd b /\ job (fst a) = job (fst b) /\ density (fst a) = density (fst b) /\
  exists m m', stiffness (fst a) = Some m /\ stiffness (fst b) = Some m' /\
    forall i j, (i < 6)%nat -> (j < 6)%nat -> m i j = m' i j.
Proof.
  intros H H' F F' D S. destruct (C35_full c pre rows rest d rho H F D S) as (m & E & V).
  destruct (C35_upper c pre rows' rest d rho H' F' D) as (m' & E' & V'). cbv zeta. rewrite E, E'. cbn.
  repeat split; auto. exists m, m'. repeat split; auto. intros i j Hi Hj. rewrite V, V' by assumption. f_equal.
  destruct (Nat.min_spec i j) as [(A & ->)|(A & ->)]; destruct (Nat.max_spec i j) as [(B & ->)|(B & ->)]; try lia; auto.
Qed.
(** The documented lower triangle is refused for every crystal with
    |C11| > 0.001 GPa. *)
Theorem C35_lower_refuted c pre rows rest d :
  header pre rows -> Forall2 denotes rows (lower_rows c) -> (1e-3 < Rabs (c 0%nat 0%nat))%R ->
  load (pre ++ rows ++ rest) d = (set_job d (title_of pre (job d)), Failed E_sym).
Proof.
  intros H F B. pose proof (rows_length _ _ F eq_refl) as L.
  destruct (read_rows_placed rows _ F) as (rs & E & _ & V).
  { repeat apply Forall_cons; try apply Forall_nil; simpl; lia. }
  rewrite (load_shape pre rows rest d H L), E, (forms _ _ F). cbv zeta.
  change (List.map (@List.length fl) (lower_rows c)) with [1; 2; 3; 4; 5; 6]%nat. unfold complete.
  change (eq_form [1; 2; 3; 4; 5; 6] [6; 5; 4; 3; 2; 1]%nat) with false.
  change (eq_form [1; 2; 3; 4; 5; 6] [1; 2; 3; 4; 5; 6]%nat) with true. cbv iota zeta.
  set (r := fun i j => if (j <? 5 - i)%nat then 0%R else c i (j - (5 - i))%nat).
  assert (M : forall i j, (i < 6)%nat -> (j < 6)%nat ->
    madd (to_mat rs) (transpose (tril1 (to_mat rs))) i j = Num (r i j + (if (i <=? j + 1)%nat then r j i else 0))%R).
  { intros i j Hi Hj. unfold madd, transpose, tril1. rewrite !V by lia. unfold r.
    six_index i; six_index j; cbn; reflexivity. }
  assert (X : refused (madd (to_mat rs) (transpose (tril1 (to_mat rs)))) = true).
  { apply (refused_iff _ _ M). set (x := fun i j => (r i j + (if (i <=? j + 1)%nat then r j i else 0))%R).
    pose proof (total_in _ _ (entries_nonneg x) (entries_in x 0 5 ltac:(lia) ltac:(lia))) as T.
    assert (EE : entry x 0 5 = (c 0%nat 0%nat * c 0%nat 0%nat)%R) by (unfold entry, x, r; cbn; ring). rewrite EE in T.
    apply Rlt_le_trans with (1 := B). rewrite <- sqrt_Rsqr_abs. apply sqrt_le_1_alt. unfold Rsqr. exact T. }
  rewrite X. reflexivity.
Qed.
(** A matrix without title whose first number has a sign is taken for a title. *)
Theorem C35_signed_first_entry_refuted row rows d s :
  strip row = String "-" s -> List.length rows = 5%nat ->
  load (row :: rows) d = (set_job d (rstrip row), Failed E_shape).
Proof.
  intros E L. unfold load. simpl List.length. rewrite L. cbn [Nat.ltb Nat.leb nth]. rewrite E.
  change (is_digit "-") with false. cbv iota zeta. reflexivity.
Qed.
Definition calcite_upper : list string :=
  ["Calcite"; "146.3 59.7 50.8 -20.8 0 0"; "146.3 50.8 20.8 0 0"; "85.3 0 0 0"; "34.0 0 0"; "34.0 -20.8"; "43.3"; "2711.0"].
Definition calcite (i j : nat) : R :=
  nth j (nth i [[146.3; 59.7; 50.8; -20.8; 0; 0]; [59.7; 146.3; 50.8; 20.8; 0; 0]; [50.8; 50.8; 85.3; 0; 0; 0];
                [-20.8; 20.8; 0; 34; 0; 0]; [0; 0; 0; 0; 34; -20.8]; [0; 0; 0; 0; -20.8; 43.3]]%R []) 0%R.
Lemma lit (neg : bool) (ip fp : string) v : ((if neg then -1 else 1) * IZR (Z.of_N (digits (ip ++ fp)%string)) * powerRZ 10 (0 - Z.of_nat (String.length fp)) = v)%R ->
  Some (literal neg ip fp 0) = Some (Num v).
Proof. intros <-. reflexivity. Qed.
Ltac parse_lit :=
  match goal with |- parse_float ?t = _ =>
    let r := eval cbv -[literal] in (parse_float t) in change (parse_float t) with r end;
  apply lit;
  match goal with |- context [Z.of_N ?x] => let r := eval vm_compute in (Z.of_N x) in change (Z.of_N x) with r end;
  match goal with |- context [powerRZ 10 ?x] => let r := eval vm_compute in x in change x with r end;
  unfold calcite; cbn; try change (Pos.to_nat 1) with 1%nat; cbn; lra.
Example C35_instance : header ["Calcite"] (firstn 6 (skipn 1 calcite_upper)) /\
  Forall2 denotes (firstn 6 (skipn 1 calcite_upper)) (upper_rows calcite) /\
  density_of ["2711.0"] (Num 0) = Some (Num 2711).
Proof.
  split; [|split].
  - left. exists "Calcite". split; [reflexivity|]. exists "C"%char. split; reflexivity.
  - unfold calcite_upper. cbn [firstn skipn]. cbv [upper_rows six seq List.map Nat.sub].
    repeat (apply Forall2_cons; [unfold denotes;
      match goal with |- Forall2 _ (split ?l) _ => let s := eval vm_compute in (split l) in change (split l) with s end;
      repeat (apply Forall2_cons; [parse_lit|]); apply Forall2_nil|]). apply Forall2_nil.
  - unfold density_of. change (split "2711.0") with ["2711.0"]. cbv iota. parse_lit.
Qed.

(** ** C36 *)
Definition no_nan (m : fmat) (x : nat -> nat -> R) : Prop := forall i j, (i < 6)%nat -> (j < 6)%nat -> m i j = Num (x i j).
(** Frobenius norm of the antisymmetric difference. *)
Definition frobenius (x : nat -> nat -> R) : R :=
  sqrt (total (flat_map (fun i => List.map (fun j => (x i j - x j i) ^ 2)%R six) six)).
Lemma frobenius_entries x : frobenius x = sqrt (total (entries x)).
Proof.
  unfold frobenius, entries. f_equal. f_equal. apply flat_map_ext. intros i. apply map_ext. intros j. unfold entry. ring.
Qed.
Theorem C36_completed_is_symmetric lines d d' : load lines d = (d', Completed) ->
  exists m, stiffness d' = Some m /\
    forall x, no_nan m x -> (frobenius x <= 1e-3)%R /\ forall i j, (i < 6)%nat -> (j < 6)%nat -> (Rabs (x i j - x j i) <= 1e-3)%R.
Proof.
  unfold load. intros E. destruct (List.length lines <? 6)%nat; [discriminate|].
  destruct (strip _) as [|a s]; [discriminate|]. cbv zeta in E.
  destruct (_ <? _)%nat; [discriminate|].
  destruct (read_rows _) as [rs| |]; try discriminate.
  set (m := complete _ _) in *. destruct (refused m) eqn:Rf; [discriminate|].
  assert (S : stiffness d' = Some m).
  { destruct (nth_error _ _) as [l|]; [destruct (split l) as [|t ts]; [|destruct (parse_float t)]|]; injection E as <-; try reflexivity; discriminate. }
  exists m. split; [exact S|]. intros x H.
  assert (N : (sqrt (total (entries x)) <= 1e-3)%R).
  { apply Rnot_lt_le. intros C. rewrite <- (refused_iff m x H) in C. congruence. }
  split; [now rewrite frobenius_entries|]. intros i j Hi Hj.
  apply Rle_trans with (2 := N). rewrite <- sqrt_Rsqr_abs. apply sqrt_le_1_alt.
  apply (total_in _ _ (entries_nonneg x) (entries_in x i j Hi Hj)).
Qed.
(** Every result that is not a completed reading leaves a message or raises,
    and does not touch the stored matrix (a bad density excepted). *)
Theorem C36_failure_keeps_matrix lines d d' o : load lines d = (d', o) ->
  o <> Completed -> o <> Failed E_density -> stiffness d' = stiffness d /\ density d' = density d.
Proof.
  unfold load. intros E N1 N2. destruct (List.length lines <? 6)%nat; [injection E as <- _; auto|].
  destruct (strip _) as [|a s]; [injection E as <- _; auto|]. cbv zeta in E.
  destruct (_ <? _)%nat; [injection E as <- _; destruct (is_digit a); auto|].
  destruct (read_rows _) as [rs| |]; try (injection E as <- _; destruct (is_digit a); auto).
  destruct (refused _); [injection E as <- _; destruct (is_digit a); auto|].
  exfalso. destruct (nth_error _ _) as [l|]; [destruct (split l) as [|t ts]; [|destruct (parse_float t)]|]; injection E as _ <-; congruence.
Qed.
Theorem C36_short lines d : (List.length lines < 6)%nat -> load lines d = (d, Failed E_short).
Proof. intros H. unfold load. apply Nat.ltb_lt in H. now rewrite H. Qed.
Theorem C36_blank_first_line_raises lines d : (6 <= List.length lines)%nat -> strip (nth 0 lines "") = "" ->
  load lines d = (d, Raised "IndexError").
Proof. intros H E. unfold load. apply Nat.ltb_ge in H. now rewrite H, E. Qed.
Lemma py_index_12 j n : (j < n)%nat -> (n <= 12)%nat -> exists c, py_index (Z.of_nat j + (6 - Z.of_nat n)) = Some c.
Proof.
  intros. unfold py_index. destruct (Z.leb_spec 0 (Z.of_nat j + (6 - Z.of_nat n))).
  - destruct (Z.ltb_spec (Z.of_nat j + (6 - Z.of_nat n)) 6); [eauto|lia].
  - destruct (Z.leb_spec (-6) (Z.of_nat j + (6 - Z.of_nat n))); [eauto|lia].
Qed.
Lemma store_bad row j n toks t : (n <= 12)%nat -> (j + List.length toks = n)%nat -> In t toks -> parse_float t = None ->
  store row j n toks = ValueError.
Proof.
  intros Hn. revert row j. induction toks as [|u r IH]; intros row j Hj I P; [destruct I|]. simpl in Hj. cbn [store].
  destruct (py_index_12 j n ltac:(lia) Hn) as (c & ->). destruct I as [->|I]; [now rewrite P|].
  destruct (parse_float u); [|reflexivity]. apply IH; auto. lia.
Qed.
Lemma store_index row j n toks : (n <= 12)%nat -> (j + List.length toks = n)%nat -> store row j n toks <> IndexError.
Proof.
  intros Hn. revert row j. induction toks as [|u r IH]; intros row j Hj; simpl in Hj; [discriminate|]. cbn [store].
  destruct (py_index_12 j n ltac:(lia) Hn) as (c & ->). destruct (parse_float u); [|discriminate]. apply IH. lia.
Qed.
(** Any unreadable number in the six rows (of at most twelve columns) is reported. *)
Theorem C36_non_numeric pre rows rest d l t :
  header pre rows -> List.length rows = 6%nat -> Forall (fun l => (List.length (split l) <= 12)%nat) rows ->
  In l rows -> In t (split l) -> parse_float t = None ->
  load (pre ++ rows ++ rest) d = (set_job d (title_of pre (job d)), Failed E_float).
Proof.
  intros H L W Il It P. rewrite (load_shape pre rows rest d H L).
  replace (read_rows rows) with (@ValueError (list (nat -> fl))); [reflexivity|]. symmetry.
  clear H L. induction rows as [|r rows IH]; [destruct Il|]. inversion W; subst. cbn [read_rows].
  destruct Il as [->|Il].
  - unfold read_row. rewrite (store_bad _ 0 _ _ t) by auto. reflexivity.
  - destruct (read_row r) as [x| |] eqn:E.
    + rewrite IH by assumption. reflexivity.
    + reflexivity.
    + exfalso. revert E. unfold read_row. apply store_index; auto.
Qed.
(** More than twelve columns in the first row escape as an IndexError. *)
Theorem C36_many_columns_raise pre rows rest d :
  header pre rows -> List.length rows = 6%nat -> (12 < List.length (split (nth 0 rows "")))%nat ->
  load (pre ++ rows ++ rest) d = (set_job d (title_of pre (job d)), Raised "IndexError").
Proof.
  intros H L W. rewrite (load_shape pre rows rest d H L). destruct rows as [|r rows]; [discriminate|]. cbn [nth read_rows] in *.
  replace (read_row r) with (@IndexError (nat -> fl)); [reflexivity|]. symmetry.
  unfold read_row. destruct (split r) as [|t ts]; [simpl in W; lia|]. cbn [store]. unfold py_index.
  destruct (Z.leb_spec 0 (Z.of_nat 0 + (6 - Z.of_nat (List.length (t :: ts))))); [lia|].
  destruct (Z.leb_spec (-6) (Z.of_nat 0 + (6 - Z.of_nat (List.length (t :: ts))))); [lia|reflexivity].
Qed.
(** A NaN anywhere in a full matrix switches the symmetry check off. *)
Lemma total_nan l : In NaN l -> fold_right fadd (Num 0) l = NaN.
Proof.
  induction l as [|a l IH]; [intros []|]. intros [->|I]; [reflexivity|]. simpl. rewrite (IH I). destruct a; reflexivity.
Qed.
Lemma nan_not_refused m i j : (i < 6)%nat -> (j < 6)%nat -> m i j = NaN -> refused m = false.
Proof.
  intros Hi Hj E. unfold refused, asymmetry2. rewrite total_nan; [reflexivity|].
  apply in_flat_map. exists i. split; [apply in_seq; lia|]. apply in_map_iff. exists j. split; [|apply in_seq; lia].
  rewrite E. reflexivity.
Qed.
Theorem C36_nan_accepted_refuted pre rows rest d rho (m : fmat) i j :
  header pre rows -> Forall2 denotes rows (List.map (fun i => List.map (m i) six) six) ->
  density_of rest (density d) = Some rho -> (i < 6)%nat -> (j < 6)%nat -> m i j = NaN ->
  snd (load (pre ++ rows ++ rest) d) = Completed.
Proof.
  intros H F D Hi Hj N. pose proof (rows_length _ _ F eq_refl) as L.
  destruct (read_rows_placed rows _ F) as (rs & E & _ & V).
  { repeat apply Forall_cons; try apply Forall_nil; simpl; lia. }
  rewrite (load_shape pre rows rest d H L), E, (forms _ _ F). cbv zeta.
  change (List.map (@List.length fl) (List.map (fun i => List.map (m i) six) six)) with [6; 6; 6; 6; 6; 6]%nat. unfold complete.
  change (eq_form [6; 6; 6; 6; 6; 6] [6; 5; 4; 3; 2; 1]%nat) with false.
  change (eq_form [6; 6; 6; 6; 6; 6] [1; 2; 3; 4; 5; 6]%nat) with false. cbv iota.
  rewrite (nan_not_refused (to_mat rs) i j Hi Hj).
  - cbn [set_job density]. rewrite D. reflexivity.
  - rewrite V by lia. rewrite <- N. clear N. six_index i; six_index j; reflexivity.
Qed.
Definition bad_file : list string := ["x"; "1 2 3 4 5 6"; "9 nan 0 0 0 0"; "0 0 0 0 0 0"; "0 0 0 0 0 0"; "0 0 0 0 0 0"; "0 0 0 0 0 0"].
Example C36_instance : snd (load bad_file class_data) = Completed /\
  snd (load ("x" :: "1 2 3 4 5 six" :: skipn 2 bad_file) class_data) = Failed E_float /\
  load ["x"] class_data = (class_data, Failed E_short).
Proof.
  assert (HD : forall rows, header ["x"] rows) by (intros; left; exists "x"; split; [reflexivity|]; exists "x"%char; split; reflexivity).
  split; [|split].
  - set (v := fun t => match parse_float t with Some x => x | None => Num 0 end).
    set (m := fun i j => v (nth j (split (nth i (skipn 1 bad_file) "")) "")).
    change bad_file with (["x"] ++ skipn 1 bad_file ++ []).
    apply (C36_nan_accepted_refuted ["x"] (skipn 1 bad_file) [] class_data (Num 0) m 1 1); try lia; try reflexivity.
    + apply HD.
    + repeat (apply Forall2_cons; [unfold denotes;
      match goal with |- Forall2 _ (split ?l) _ => let s := eval vm_compute in (split l) in change (split l) with s end;
      repeat (apply Forall2_cons; [reflexivity|]); apply Forall2_nil|]). apply Forall2_nil.
  - change ("x" :: "1 2 3 4 5 six" :: skipn 2 bad_file) with (["x"] ++ ("1 2 3 4 5 six" :: skipn 2 bad_file) ++ []).
    rewrite (C36_non_numeric ["x"] ("1 2 3 4 5 six" :: skipn 2 bad_file) [] class_data "1 2 3 4 5 six" "six"); try reflexivity.
    + apply HD.
    + repeat (apply Forall_cons; [vm_compute; lia|]). apply Forall_nil.
    + now left.
    + vm_compute. tauto.
  - apply C36_short. simpl. lia.
Qed.

(** ** C38, elastic reader *)
(** A reader on a file with title, matrix and density does not depend on what
    was read before. *)
Theorem C38_soec_complete_file_isolated t rows l rest d1 d2 :
  titled t -> List.length rows = 6%nat -> split l <> [] -> 
  snd (load ([t] ++ rows ++ l :: rest) d1) = Completed ->
  load ([t] ++ rows ++ l :: rest) d1 = load ([t] ++ rows ++ l :: rest) d2.
Proof.
  intros T L N. assert (H : header [t] rows) by (left; eauto).
  rewrite !(load_shape [t] rows (l :: rest) _ H L). cbv zeta. cbn [title_of].
  destruct (read_rows rows); try discriminate. destruct (refused _); [discriminate|].
  unfold density_of. destruct (split l) as [|x xs]; [contradiction|]. destruct (parse_float x); [|discriminate]. reflexivity.
Qed.
(** Otherwise it is not isolated: without a density line the previous file's
    density is reported, without a title line the previous title. *)
Theorem C38_soec_stale_refuted pre rows d d' :
  header pre rows -> List.length rows = 6%nat -> load (pre ++ rows ++ []) d = (d', Completed) ->
  density d' = density d /\ (pre = [] -> job d' = job d).
Proof.
  intros H L. rewrite (load_shape pre rows [] d H L). cbv zeta. destruct (read_rows rows); try discriminate.
  destruct (refused _); [discriminate|]. cbn [density_of]. intros E. injection E as <-. split; [reflexivity|]. intros ->. reflexivity.
Qed.
(** What an already constructed reader reports is that of the last file. *)
Theorem C38_soec_last_file_refuted files f d : readers (files ++ [f]) d = fst (load f (readers files d)).
Proof. revert d. induction files as [|g r IH]; intros d; simpl; [reflexivity|apply IH]. Qed.
Example C38_soec_instance : density (readers [calcite_upper; firstn 7 calcite_upper] class_data) = density (readers [calcite_upper] class_data).
Proof.
  change [calcite_upper; firstn 7 calcite_upper] with ([calcite_upper] ++ [firstn 7 calcite_upper]). rewrite C38_soec_last_file_refuted.
  destruct C35_instance as (H & F & _).
  destruct (C35_upper calcite ["Calcite"] (firstn 6 (skipn 1 calcite_upper)) [] (readers [calcite_upper] class_data) _ H F eq_refl) as (m & E & _).
  change (firstn 7 calcite_upper) with (["Calcite"] ++ firstn 6 (skipn 1 calcite_upper) ++ []). rewrite E. reflexivity.
Qed.

(** ** C37 *)
Section RoundTrip.
Variable round_abs : nat -> R -> N.
Hypothesis round_near : forall k x, (Rabs (IZR (Z.of_N (round_abs k x)) - Rabs x * 10 ^ k) <= 1 / 2)%R.
(** The printed value of x with k digits. *)
Definition rounded (k : nat) (x : R) : R :=
  ((if negative x then -1 else 1) * IZR (Z.of_N (round_abs k x)) * powerRZ 10 (- Z.of_nat k))%R.
Lemma powerRZ_inverse k : powerRZ 10 (- Z.of_nat k) = (/ 10 ^ k)%R.
Proof. destruct k; simpl; [now rewrite Rinv_1|]. now rewrite SuccNat2Pos.id_succ. Qed.
Lemma rounded_near k x : (Rabs (rounded k x - x) <= 1 / 2 * / 10 ^ k)%R.
Proof.
  unfold rounded. rewrite powerRZ_inverse.
  assert (P : (0 < 10 ^ k)%R) by (apply pow_lt; lra).
  specialize (round_near k x). unfold negative. set (n := IZR _) in *. destruct (Rlt_dec x 0) as [Neg|Pos].
  - rewrite (Rabs_left x Neg) in round_near.
    replace (-1 * n * / 10 ^ k - x)%R with (- (n - - x * 10 ^ k) * / 10 ^ k)%R by (field; lra).
    rewrite Rabs_mult, Rabs_Ropp, (Rabs_right (/ 10 ^ k)) by (left; now apply Rinv_0_lt_compat).
    apply Rmult_le_compat_r; [left; now apply Rinv_0_lt_compat|exact round_near].
  - rewrite (Rabs_right x) in round_near by lra.
    replace (1 * n * / 10 ^ k - x)%R with ((n - x * 10 ^ k) * / 10 ^ k)%R by (field; lra).
    rewrite Rabs_mult, (Rabs_right (/ 10 ^ k)) by (left; now apply Rinv_0_lt_compat).
    apply Rmult_le_compat_r; [left; now apply Rinv_0_lt_compat|exact round_near].
Qed.
Notation cell := (cell round_abs).
Notation write := (write round_abs).
Lemma sign_no_space neg k n : no_space (sign_text neg ++ print_fixed k n) /\ (sign_text neg ++ print_fixed k n)%string <> "".
Proof.
  split.
  - unfold no_space. rewrite all_chars_app, print_fixed_nonspace. destruct neg; reflexivity.
  - destruct neg; [discriminate|]. simpl. unfold print_fixed. pose proof (print_nat_nonempty (n / 10 ^ N.of_nat k)%N).
    destruct (print_nat _); [contradiction|discriminate].
Qed.
Lemma spaces_app a b : (spaces a ++ spaces b)%string = spaces (a + b).
Proof. induction a; simpl; congruence. Qed.
Lemma cell_shape x : exists k, cell x = (spaces k ++ (sign_text (negative x) ++ print_fixed 4 (round_abs 4 x)) ++ " ")%string.
Proof.
  unfold SoecIOModel.cell, pad_left. set (p := print_fixed 4 (round_abs 4 x)). destruct (negative x).
  - exists (11 - String.length (String "-" p))%nat. rewrite append_assoc. reflexivity.
  - exists (11 - String.length (String " " p) + 1)%nat. rewrite <- spaces_app, !append_assoc. reflexivity.
Qed.
Lemma split_cells x s : split (cell x ++ s) = (sign_text (negative x) ++ print_fixed 4 (round_abs 4 x))%string :: split s.
Proof.
  destruct (cell_shape x) as (k & ->). destruct (sign_no_space (negative x) 4 (round_abs 4 x)) as (A & B).
  rewrite !append_assoc. rewrite <- (append_assoc (sign_text _)).
  change (" " ++ s)%string with (String " " s). now apply split_field.
Qed.
Lemma concat_cons s r : r <> [] -> String.concat "" (s :: r) = (s ++ String.concat "" r)%string.
Proof. destruct r; [contradiction|reflexivity]. Qed.
Lemma split_row (f : nat -> R) tail : split tail = [] ->
  split (String.concat "" (List.map (fun j => cell (f j)) six) ++ tail) =
  List.map (fun j => (sign_text (negative (f j)) ++ print_fixed 4 (round_abs 4 (f j)))%string) six.
Proof.
  intros T. unfold six. cbn [seq List.map].
  rewrite !concat_cons by discriminate. cbn [String.concat]. rewrite !append_assoc, !split_cells, T. reflexivity.
Qed.
Lemma newline_blank : split (String newline "") = [].
Proof. reflexivity. Qed.
Lemma no_space_no_newline s : no_space s -> no_newline s.
Proof.
  unfold no_space, no_newline. induction s as [|a s IH]; simpl; [reflexivity|]. intros H. apply andb_prop in H. destruct H as (A & B).
  rewrite (IH B), andb_true_r. destruct (Ascii.eqb_spec a newline) as [->|]; [discriminate A|reflexivity].
Qed.
Lemma spaces_no_newline k : no_newline (spaces k).
Proof. unfold no_newline. induction k; simpl; [reflexivity|exact IHk]. Qed.
Lemma nl_app a b : no_newline a -> no_newline b -> no_newline (a ++ b).
Proof. unfold no_newline. intros A B. rewrite all_chars_app, A, B. reflexivity. Qed.
Lemma cell_no_newline x : no_newline (cell x).
Proof.
  destruct (cell_shape x) as (k & ->). apply nl_app; [apply spaces_no_newline|]. apply nl_app; [|reflexivity].
  apply no_space_no_newline, sign_no_space.
Qed.
Lemma row_no_newline (f : nat -> R) : no_newline (String.concat "" (List.map (fun j => cell (f j)) six)).
Proof.
  unfold six. cbn [seq List.map]. rewrite !concat_cons by discriminate. cbn [String.concat].
  repeat (apply nl_app; [apply cell_no_newline|]). apply cell_no_newline.
Qed.
Lemma density_shape x : exists k, density_text round_abs x = (spaces k ++ (sign_text (negative x) ++ print_fixed 1 (round_abs 1 x)))%string.
Proof. unfold density_text, pad_left. eexists. reflexivity. Qed.
Lemma all_space_app a b : all_space (a ++ b) = (all_space a && all_space b)%bool.
Proof. induction a; simpl; [reflexivity|]. rewrite IHa, andb_assoc. reflexivity. Qed.
Lemma rstrip_app s c : all_space c = true -> rstrip (s ++ c) = rstrip s.
Proof.
  intros H. induction s as [|a s IH]; simpl.
  - destruct c as [|b c]; [reflexivity|]. cbn [rstrip]. rewrite H. reflexivity.
  - rewrite all_space_app, H, andb_true_r. rewrite IH. reflexivity.
Qed.
Lemma lstrip_app s c : all_space s = false -> lstrip (s ++ c) = (lstrip s ++ c)%string.
Proof.
  induction s as [|a s IH]; simpl; [discriminate|]. destruct (is_space a); simpl; [exact IH|reflexivity].
Qed.
Lemma lstrip_all_space s : all_space s = true -> lstrip s = "".
Proof. induction s as [|a s IH]; simpl; [reflexivity|]. intros H. apply andb_prop in H. destruct H as (-> & B). auto. Qed.
Lemma strip_newline s : strip (s ++ String newline "") = strip s.
Proof.
  unfold strip. destruct (all_space s) eqn:A.
  - rewrite !lstrip_all_space; [reflexivity|exact A|]. rewrite all_space_app, A. reflexivity.
  - rewrite lstrip_app by exact A. now apply rstrip_app.
Qed.

Lemma Forall2_maps {A B C} (P : B -> C -> Prop) (f : A -> B) (g : A -> C) l : (forall x, P (f x) (g x)) -> Forall2 P (List.map f l) (List.map g l).
Proof. intros H. induction l; simpl; constructor; auto. Qed.
(** The lines of the generated file. *)
Lemma written_lines title m rho : no_newline title ->
  readlines (write title m rho) =
  [(title ++ String newline "")%string] ++
  List.map (fun i => (String.concat "" (List.map (fun j => cell (m i j)) six) ++ String newline "")%string) six ++ [density_text round_abs rho].
Proof.
  intros T. unfold SoecIOModel.write. rewrite readlines_join.
  - unfold six. cbn [seq List.map app with_newlines]. reflexivity.
  - apply Forall_cons; [exact T|]. apply Forall_app; split.
    + apply Forall_forall. intros s K. apply in_map_iff in K. destruct K as (i & <- & _). apply row_no_newline.
    + apply Forall_cons; [|apply Forall_nil]. destruct (density_shape rho) as (k & ->).
      apply nl_app; [apply spaces_no_newline|]. apply no_space_no_newline, sign_no_space.
  - discriminate.
  - unfold six. cbn [seq List.map app last]. destruct (density_shape rho) as (k & ->).
    destruct (sign_no_space (negative rho) 1 (round_abs 1 rho)) as (_ & B).
    destruct k; [exact B|discriminate].
Qed.
Theorem C37_roundtrip title m rho d :
  no_newline title -> titled title -> (forall i j, (i < 6)%nat -> (j < 6)%nat -> m i j = m j i) ->
  exists s, load (readlines (write title m rho)) d =
    ({| job := rstrip title; stiffness := Some s; density := Num (rounded 1 rho) |}, Completed) /\
    (forall i j, (i < 6)%nat -> (j < 6)%nat -> s i j = Num (rounded 4 (m i j))) /\
    (forall i j, Rabs (rounded 4 (m i j) - m i j) <= 5e-5)%R /\ (Rabs (rounded 1 rho - rho) <= 5e-2)%R.
Proof.
  intros T (a & Ha & Da) S. rewrite (written_lines title m rho T).
  destruct (C35_full (fun i j => rounded 4 (m i j)) [(title ++ String newline "")%string]
     (List.map (fun i => (String.concat "" (List.map (fun j => cell (m i j)) six) ++ String newline "")%string) six)
     [density_text round_abs rho] d (Num (rounded 1 rho))) as (s & E & V).
  - left. eexists. split; [reflexivity|]. exists a. split; [|exact Da]. unfold first_char in *. now rewrite strip_newline.
  - unfold full_rows. apply Forall2_maps. intros i. unfold denotes. rewrite (split_row _ _ newline_blank).
    apply Forall2_maps. intros j. apply (print_parse _ 4 _ ltac:(lia)).
  - unfold density_of. destruct (density_shape rho) as (k & ->).
    destruct (sign_no_space (negative rho) 1 (round_abs 1 rho)) as (A & B).
    rewrite (split_last k _ A B). apply (print_parse _ 1 _ ltac:(lia)).
  - intros i j Hi Hj. now rewrite S.
  - exists s. rewrite E. cbn [title_of]. rewrite rstrip_app by reflexivity. split; [reflexivity|]. split; [exact V|]. split.
    + intros i j. pose proof (rounded_near 4 (m i j)). simpl in H. lra.
    + pose proof (rounded_near 1 rho). simpl in H. lra.
Qed.
(** Titles that break the file: blank ones, and those starting with a digit
    and containing a word. *)
Theorem C37_blank_title_refuted title m rho d :
  no_newline title -> strip title = "" -> load (readlines (write title m rho)) d = (d, Raised "IndexError").
Proof.
  intros T B. apply C36_blank_first_line_raises.
  - rewrite written_lines by exact T. rewrite !app_length, map_length. simpl. lia.
  - rewrite written_lines by exact T. cbn [app nth]. now rewrite strip_newline.
Qed.
Lemma split_newline s : split (s ++ String newline "") = split s.
Proof.
  unfold split. generalize "" at 1 3 as cur. induction s as [|a s IH]; intros cur; simpl.
  - destruct cur; reflexivity.
  - destruct (is_space a); [destruct cur; [apply IH|f_equal; apply IH]|apply IH].
Qed.
Theorem C37_digit_title_refuted title m rho d w :
  no_newline title -> starts_with_digit title -> (List.length (split title) <= 12)%nat -> In w (split title) -> parse_float w = None ->
  snd (load (readlines (write title m rho)) d) = Failed E_float.
Proof.
  intros T (a & Ha & Da) L I P. rewrite (written_lines title m rho T).
  set (r := fun i => (String.concat "" (List.map (fun j => cell (m i j)) six) ++ String newline "")%string).
  change (snd (load ([] ++ [(title ++ String newline "")%string; r 0%nat; r 1%nat; r 2%nat; r 3%nat; r 4%nat] ++ [r 5%nat; density_text round_abs rho]) d) = Failed E_float).
  rewrite (C36_non_numeric [] _ _ d (title ++ String newline "")%string w).
  - reflexivity.
  - right. split; [reflexivity|]. exists a. cbn [nth]. split; [|exact Da]. unfold first_char in *. now rewrite strip_newline.
  - reflexivity.
  - apply Forall_cons; [now rewrite split_newline|].
    assert (W : forall i, (List.length (split (r i)) <= 12)%nat) by (intros i; unfold r; rewrite (split_row _ _ newline_blank), map_length; simpl; lia).
    repeat apply Forall_cons; try apply Forall_nil; apply W.
  - now left.
  - now rewrite split_newline.
  - exact P.
Qed.
End RoundTrip.
(** A rounding rule exists: half up. *)
Definition round_half_up (k : nat) (x : R) : N := Z.to_N (up (Rabs x * 10 ^ k - 1 / 2)).
Example C37_instance : (forall k x, (Rabs (IZR (Z.of_N (round_half_up k x)) - Rabs x * 10 ^ k) <= 1 / 2)%R) /\
  titled "Calcite" /\ no_newline "Calcite" /\ starts_with_digit "2H-MoS2" /\ parse_float "2H-MoS2" = None.
Proof.
  split; [|repeat split; try reflexivity; eexists; split; reflexivity].
  intros k x. unfold round_half_up. pose proof (archimed (Rabs x * 10 ^ k - 1 / 2)) as (A & B).
  assert (P : (0 <= Rabs x * 10 ^ k)%R) by (apply Rmult_le_pos; [apply Rabs_pos|left; apply pow_lt; lra]).
  assert (U : (0 <= up (Rabs x * 10 ^ k - 1 / 2))%Z).
  { apply Z.lt_succ_r. apply lt_IZR. rewrite succ_IZR. lra. }
  rewrite Z2N.id by exact U. apply Rabs_le. lra.
Qed.

Print Assumptions C35_full.
Print Assumptions C35_upper.
Print Assumptions C35_forms_agree.
Print Assumptions C35_lower_refuted.
Print Assumptions C35_signed_first_entry_refuted.
Print Assumptions C36_completed_is_symmetric.
Print Assumptions C36_failure_keeps_matrix.
Print Assumptions C36_short.
Print Assumptions C36_blank_first_line_raises.
Print Assumptions C36_non_numeric.
Print Assumptions C36_many_columns_raise.
Print Assumptions C36_nan_accepted_refuted.
Print Assumptions C38_soec_complete_file_isolated.
Print Assumptions C38_soec_stale_refuted.
Print Assumptions C38_soec_last_file_refuted.
Print Assumptions C37_roundtrip.
Print Assumptions C37_blank_title_refuted.
Print Assumptions C37_digit_title_refuted.
