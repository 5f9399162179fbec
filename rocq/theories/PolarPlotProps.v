(** C86: the polar figures of elastic constants. *)
From Coq Require Import Reals String Ascii List Bool Arith Lia Lra.
From Verif Require Import Py DecimalModel FormatModel FormatProofs TableModel StoreModel SymmetryModel TensorModel TensorProps AverageProps SoecRunModel SoecRunProps SoecTableModel SoecTableProofs SoecTableProps PolarPlotModel.
From Verif Require SeismicPlotModel SeismicFigureProps.
Import ListNotations.
Open Scope string_scope.
Open Scope list_scope.
Open Scope nat_scope.

(** The ray from the centre of a polar axis on which a point is drawn: to the
    right and upwards. *)
Definition ray (p : R * R) : R * R := (- sin (fst p), cos (fst p))%R.
(** The crystal axes at the top and at the left of each cut. *)
Definition upwards (pl : plane) : nat := match pl with XY => 0 | XZ => 2 | YZ => 2 end.
Definition leftwards (pl : plane) : nat := match pl with XY => 1 | XZ => 0 | YZ => 1 end.
Definition place (pl : plane) : nat := match pl with XY => 0 | XZ => 1 | YZ => 2 end.
Definition figure_names (density : R) : list string := ["E"; "LC"; "G"; "Nu"] ++ (if Rlt_dec 0 density then ["waves"] else []).
Definition captions : list (string * string) :=
  [("E", "Young's modulus"); ("LC", "Linear compressibility"); ("G", "Shear modulus"); ("Nu", "Poisson's ratio"); ("waves", "Seismic waves")].
Definition caption (name : string) : string := match find name captions with Some t => t | None => "" end.
Definition words (name : string) : list string :=
  if String.eqb name "E" then [] else if String.eqb name "LC" then ["Positive"; "Negative"] else if String.eqb name "G" then ["Minimum"; "Maximum"]
  else if String.eqb name "Nu" then ["Negative"; "Minimum"; "Maximum"] else ["$v_{s1}$"; "$v_{s2}$"; "$v_{p}$"].
(** The direction of row i. *)
Definition direction (pl : plane) (i : nat) : vec := cut_direction pl (360 * INR i / 359).

Section Figures.
Variables (powell : (R -> R) -> R) (waves : plane -> nat -> list R) (s : settings) (density : R) (S : mat6).
Notation tables := (plane_tables powell waves (polar s) density S).
Notation values name pl i := (calculated powell waves name S pl i).

Lemma in_names name : In name (figure_names density) -> In name ["E"; "LC"; "G"; "Nu"] \/ name = "waves" /\ (0 < density)%R.
Proof. unfold figure_names. rewrite in_app_iff. intros [H|H]; [now left|right]. destruct (Rlt_dec 0 density); [|destruct H]. destruct H as [<-|[]]. auto. Qed.
Lemma names_polar name : In name (figure_names density) -> In name polar_names.
Proof. intros N. apply in_names in N. cbn [In polar_names] in *. destruct N as [N|[-> _]]; tauto. Qed.
Definition columns_of (name : string) : list nat := seq 1 (per_plane name).
Definition top_of (name : string) : nat := if String.eqb name "LC" then 1 else per_plane name.
Lemma figure_of name : In name polar_names -> exists f, find name plot_functions = Some f /\
  forall xy xz yz, map (polar_axis (caption name) "xy" (columns_of name) (top_of name)) [xy] ++ map (polar_axis (caption name) "xz" (columns_of name) (top_of name)) [xz]
    ++ map (polar_axis (caption name) "yz" (columns_of name) (top_of name)) [yz] = cuts (f xy xz yz) /\ legend (f xy xz yz) = words name.
Proof. intros N. cbn [polar_names In] in N. decompose [or False] N; subst name; eexists; split; try reflexivity; intros; split; reflexivity. Qed.
Lemma find_run name pl : polar s = true -> In name (figure_names density) -> find name (tables pl) = Some (map (fun i => (360 * INR i / 359)%R :: values name pl i) (seq 0 360)).
Proof.
  intros P N. rewrite P. apply in_names in N. rewrite <- (calculated_table powell waves density S name pl N). unfold run_table, find_table, plane_tables.
  cbn [In] in N. decompose [or and False] N; subst name; try reflexivity. destruct (Rlt_dec 0 density); [reflexivity|lra].
Qed.
Lemma saved_all base props : polar s = true -> (forall p, In p props -> In p (figure_names density)) ->
  snd (saved base tables props) = None /\ map fst (fst (saved base tables props)) = map (fun p => base +++ "_" +++ p +++ ".png") props /\
  forall p, In p props -> exists f, find p plot_functions = Some f /\
    In (base +++ "_" +++ p +++ ".png", f (map (fun i => (360 * INR i / 359)%R :: values p XY i) (seq 0 360))
      (map (fun i => (360 * INR i / 359)%R :: values p XZ i) (seq 0 360)) (map (fun i => (360 * INR i / 359)%R :: values p YZ i) (seq 0 360)))
      (fst (saved base tables props)).
Proof.
  intros P. induction props as [|p props IH]; intros H; cbn [saved]; [repeat split; intros ? []|].
  destruct (figure_of p (names_polar p (H p (or_introl eq_refl)))) as (f & F & _). rewrite F, !(find_run p _ P (H p (or_introl eq_refl))).
  destruct (IH (fun q Q => H q (or_intror Q))) as (A & B & D). destruct (saved base tables props) as [l e]. cbn [fst snd] in *.
  split; [exact A|]. split; [cbn [map fst]; now rewrite B|]. intros q [<-|Q]; [exists f; split; [exact F|now left]|].
  destruct (D q Q) as (g & G & I). exists g. split; [exact G|now right].
Qed.
Lemma prop_list : (if Rlt_dec 0 density then ["E"; "LC"; "G"; "Nu"; "waves"] else ["E"; "LC"; "G"; "Nu"]) = figure_names density.
Proof. unfold figure_names. now destruct (Rlt_dec 0 density). Qed.
(** Exactly the figures of the run are saved, each name once; the one of the
    waves needs a density. *)
Lemma append_inj_l a b c : a +++ b = a +++ c -> b = c.
Proof. induction a as [|x a IH]; [auto|]. intros E. change (String x (a +++ b) = String x (a +++ c)) in E. injection E. exact IH. Qed.
Theorem C86_figures :
  snd (soec_figures s density tables) = None /\ NoDup (map fst (fst (soec_figures s density tables))) /\
  (forall file, In file (map fst (fst (soec_figures s density tables))) <->
     polar s = true /\ plotting s = true /\ matplotlib s = true /\
     exists name, file = basename s +++ "_" +++ name +++ ".png" /\ (In name ["E"; "LC"; "G"; "Nu"] \/ name = "waves" /\ (0 < density)%R)) /\
  forall eigv, gate eigv = false -> forall file, In (Figure file) (fst (run s density eigv)) <-> In file (map fst (fst (soec_figures s density tables))).
Proof.
  unfold soec_figures. rewrite prop_list.
  assert (X : forall b, polar s && plotting s && matplotlib s = b ->
    snd (if b then saved (basename s) tables (figure_names density) else ([], None)) = None /\
    NoDup (map fst (fst (if b then saved (basename s) tables (figure_names density) else ([], None)))) /\
    map fst (fst (if b then saved (basename s) tables (figure_names density) else ([], None))) = if b then map (fun p => basename s +++ "_" +++ p +++ ".png") (figure_names density) else []).
  { intros [|] B; [|cbn; repeat split; constructor]. apply andb_true_iff in B. destruct B as [B _]. apply andb_true_iff in B. destruct B as [B _].
    destruct (saved_all (basename s) (figure_names density) B (fun _ H => H)) as (A1 & A2 & _). split; [exact A1|]. rewrite A2. split; [|reflexivity].
    assert (J : forall p q, basename s +++ "_" +++ p +++ ".png" = basename s +++ "_" +++ q +++ ".png" -> p +++ ".png" = q +++ ".png").
    { intros p q E. apply append_inj_l in E. injection E. auto. }
    unfold figure_names. destruct (Rlt_dec 0 density); cbn [app map]; repeat constructor; cbn [In]; intros H; decompose [or False] H;
      match goal with E : _ = _ |- _ => apply J in E; discriminate E end. }
  specialize (X _ eq_refl). destruct X as (X1 & X2 & X3). split; [exact X1|]. split; [exact X2|]. split; intros.
  - rewrite X3. destruct (polar s), (plotting s), (matplotlib s); cbn [andb]; try (split; [intros []|intros (? & ? & ? & _); discriminate]).
    rewrite in_map_iff. split.
    + intros (p & <- & H). repeat (split; [reflexivity|]). exists p. split; [reflexivity|now apply in_names].
    + intros (_ & _ & _ & p & -> & H). exists p. split; [reflexivity|]. unfold figure_names. rewrite in_app_iff. destruct H as [H|[-> H]]; [now left|right].
      destruct (Rlt_dec 0 density); [now left|contradiction].
  - rewrite X3. unfold run. rewrite H. cbn [fst]. unfold plots, initial_report.
    assert (Q : forall l l', In (Figure file) (l ++ l') <-> In (Figure file) l \/ In (Figure file) l') by (intros; apply in_app_iff).
    rewrite !Q. destruct (polar s), (plotting s), (matplotlib s); cbn [andb negb]; destruct (Rlt_dec 0 density) as [D|D]; unfold figure_names;
      destruct (Rlt_dec 0 density); try contradiction; cbn [In map app]; intuition (try discriminate; try congruence).
Qed.

Lemma combine_nth_error {A B} (l : list A) (m : list B) i a b : nth_error l i = Some a -> nth_error m i = Some b -> nth_error (combine l m) i = Some (a, b).
Proof.
  revert m i. induction l as [|x l IH]; intros [|y m] [|i] H K; cbn in *; try discriminate; [congruence|now apply IH].
Qed.
Lemma nth_error_map_seq {A} (f : nat -> A) n i : i < n -> nth_error (map f (seq 0 n)) i = Some (f i).
Proof. intros H. rewrite nth_error_map, (nth_error_nth' (seq 0 n) 0) by now rewrite seq_length. now rewrite seq_nth. Qed.
Lemma nth_error_seq1 n j : j < n -> nth_error (seq 1 n) j = Some (1 + j).
Proof. intros H. rewrite (nth_error_nth' (seq 1 n) 0) by now rewrite seq_length. now rewrite seq_nth. Qed.
Definition rows name pl : list (list R) := map (fun i => (360 * INR i / 359)%R :: values name pl i) (seq 0 360).
Lemma col_rows name pl k : col k (rows name pl) = map (fun i => nth k ((360 * INR i / 359)%R :: values name pl i) 0%R) (seq 0 360).
Proof. unfold col, rows. now rewrite map_map. Qed.
Lemma curve_point name pl k i : i < 360 -> nth_error (curve (rows name pl) k) i =
  Some (radians (360 * INR i / 359), nth k ((360 * INR i / 359)%R :: values name pl i) 0%R).
Proof.
  intros I. unfold curve. apply combine_nth_error.
  - rewrite col_rows, map_map. rewrite nth_error_map_seq by exact I. reflexivity.
  - rewrite col_rows. now rewrite nth_error_map_seq.
Qed.
Lemma curve_length name pl k : List.length (curve (rows name pl) k) = 360.
Proof. unfold curve. rewrite combine_length, map_length, !col_rows, !map_length, seq_length. reflexivity. Qed.
Lemma saved_figure name : polar s = true -> plotting s = true -> matplotlib s = true -> In name (figure_names density) ->
  exists f, In (basename s +++ "_" +++ name +++ ".png", f) (fst (soec_figures s density tables)) /\ List.length (cuts f) = 3 /\ legend f = words name /\
    forall pl, nth_error (cuts f) (place pl) = Some (polar_axis (caption name) (plane_name pl) (columns_of name) (top_of name) (rows name pl)).
Proof.
  intros P Q M N. unfold soec_figures. assert (G : polar s && plotting s && matplotlib s = true) by now rewrite P, Q, M. rewrite G, prop_list.
  destruct (saved_all (basename s) (figure_names density) P (fun _ H => H)) as (_ & _ & D). destruct (D name N) as (f & F & I).
  eexists. split; [exact I|]. destruct (figure_of name (names_polar name N)) as (f' & F' & E). assert (f' = f) by congruence. subst f'.
  rewrite (proj2 (E _ _ _)), <- (proj1 (E _ _ _)). split; [reflexivity|]. split; [reflexivity|]. intros [| |]; reflexivity.
Qed.
(** Each figure has the three cuts; the curves of a cut are the calculated columns,
    and every value is drawn along its own direction. *)
Theorem C86_values name : polar s = true -> plotting s = true -> matplotlib s = true -> In name (figure_names density) ->
  exists f, In (basename s +++ "_" +++ name +++ ".png", f) (fst (soec_figures s density tables)) /\ List.length (cuts f) = 3 /\ legend f = words name /\
  forall pl, exists c, nth_error (cuts f) (place pl) = Some c /\ text c = caption name +++ " (" +++ plane_name pl +++ ")" /\
    List.length (curves c) = per_plane name /\
    forall j, j < per_plane name -> exists cv, nth_error (curves c) j = Some cv /\ List.length cv = 360 /\
      forall i, i < 360 -> exists pt, nth_error cv i = Some pt /\ snd pt = nth j (values name pl i) 0%R /\
        ray pt = (- direction pl i (leftwards pl), direction pl i (upwards pl))%R.
Proof.
  intros P Q M N. destruct (saved_figure name P Q M N) as (f & I & L & W & C). exists f. split; [exact I|]. split; [exact L|]. split; [exact W|].
  intros pl. eexists. split; [apply C|]. split; [reflexivity|]. cbn [polar_axis curves]. unfold columns_of. split; [now rewrite map_length, seq_length|].
  intros j J. exists (curve (rows name pl) (1 + j)). split; [rewrite nth_error_map, nth_error_seq1 by exact J; reflexivity|].
  split; [apply curve_length|]. intros i Hi. eexists. split; [now apply curve_point|]. cbn [nth Nat.add]. split; [reflexivity|].
  unfold ray, direction, cut_direction, radians. cbn [fst snd]. replace (360 * INR i / 359 * (PI / 180))%R with (360 * INR i / 359 * PI / 180)%R by field.
  destruct pl; reflexivity.
Qed.

(** The outer limit is 1.1 times the greatest value of a column. *)
Lemma maximum_spec l : l <> [] -> In (maximum l) l /\ forall x, In x l -> (x <= maximum l)%R.
Proof.
  destruct l as [|x l]; [congruence|]. intros _. cbn [maximum]. assert (G : forall l x, (In (fold_left Rmax l x) (x :: l)) /\ forall y, In y (x :: l) -> (y <= fold_left Rmax l x)%R).
  { clear. induction l as [|z l IH]; intros x; cbn [fold_left]; [split; [now left|intros y [<-|[]]; lra]|]. destruct (IH (Rmax x z)) as [A B]. split.
    - destruct A as [A|A]; [|right; now right]. rewrite <- A. destruct (Rle_dec x z); [rewrite Rmax_right by lra; right; now left|rewrite Rmax_left by lra; now left].
    - pose proof (B (Rmax x z) (or_introl eq_refl)). pose proof (Rmax_l x z). pose proof (Rmax_r x z). intros y [<-|[<-|Y]]; [lra|lra|]. apply B. now right. }
  apply G.
Qed.
Lemma limit_spec name pl : let m := maximum (col (top_of name) (rows name pl)) in In name polar_names ->
  (exists i, i < 360 /\ m = nth (top_of name - 1) (values name pl i) 0%R) /\ forall i, i < 360 -> (nth (top_of name - 1) (values name pl i) 0 <= m)%R.
Proof.
  intros m N. assert (T : exists k, top_of name = Datatypes.S k) by (cbn [polar_names In] in N; decompose [or False] N; subst name; eexists; reflexivity).
  destruct T as [k T]. destruct (maximum_spec (col (top_of name) (rows name pl))) as [A B].
  - intros E. apply (f_equal (@List.length R)) in E. rewrite col_rows, map_length, seq_length in E. discriminate E.
  - fold m in A, B. rewrite col_rows, T in A, B. rewrite T. cbn [nth Nat.sub] in A, B |- *. rewrite Nat.sub_0_r. split.
    + apply in_map_iff in A. destruct A as (i & E & I). apply in_seq in I. exists i. split; [lia|now rewrite E].
    + intros i I. apply B. apply in_map_iff. exists i. split; [reflexivity|apply in_seq; lia].
Qed.
Definition limiting (name : string) : nat := if String.eqb name "LC" then 0 else per_plane name - 1.
Theorem C86_limit name : polar s = true -> plotting s = true -> matplotlib s = true -> In name (figure_names density) ->
  exists f, In (basename s +++ "_" +++ name +++ ".png", f) (fst (soec_figures s density tables)) /\
  forall pl, exists c i, nth_error (cuts f) (place pl) = Some c /\ i < 360 /\ rmax c = (1.1 * nth (limiting name) (values name pl i) 0)%R /\
    forall i', i' < 360 -> (nth (limiting name) (values name pl i') 0 <= nth (limiting name) (values name pl i) 0)%R.
Proof.
  intros P Q M N. destruct (saved_figure name P Q M N) as (f & I & L & LG & C). exists f. split; [exact I|]. intros pl.
  destruct (limit_spec name pl (names_polar name N)) as [(i & Hi & E) B].
  assert (T : limiting name = top_of name - 1) by (apply names_polar in N; cbn [polar_names In] in N; decompose [or False] N; subst name; reflexivity).
  eexists. exists i. split; [apply C|]. split; [exact Hi|]. rewrite T. cbn [polar_axis rmax]. rewrite E in *. split; [reflexivity|]. exact B.
Qed.

(** In the figures of Young's modulus, shear modulus and waves of a stable crystal
    everything is drawn, inside the outer limit. *)
Definition search_ok : Prop := (forall f, (powell f <= f (PI / 2))%R) /\ forall f, exists z, powell f = f z.
Definition ascending : Prop := forall pl i, (0 <= nth 0 (waves pl i) 0 /\ nth 0 (waves pl i) 0 <= nth 1 (waves pl i) 0 <= nth 2 (waves pl i) 0)%R.
Theorem C86_inside name : positive_definite S -> search_ok -> ascending ->
  polar s = true -> plotting s = true -> matplotlib s = true -> In name (figure_names density) -> name <> "LC" -> name <> "Nu" ->
  exists f, In (basename s +++ "_" +++ name +++ ".png", f) (fst (soec_figures s density tables)) /\
  forall pl c cv pt, nth_error (cuts f) (place pl) = Some c -> In cv (curves c) -> In pt cv -> (0 <= snd pt <= rmax c)%R.
Proof.
  intros PD [S1 S2] W P Q M N NL NN. destruct (saved_figure name P Q M N) as (f & I & L & LG & C). exists f. split; [exact I|].
  intros pl c cv pt E IC IP. rewrite C in E. injection E as <-. cbn [polar_axis curves rmax] in *. apply in_map_iff in IC. destruct IC as (k & <- & K).
  unfold columns_of in K. apply in_seq in K. destruct (In_nth_error _ _ IP) as [i Hi].
  assert (I6 : i < 360) by (rewrite <- (curve_length name pl k); apply nth_error_Some; congruence).
  rewrite (curve_point name pl k i I6) in Hi. injection Hi as <-. cbn [snd]. destruct k as [|k]; [lia|]. cbn [nth].
  pose proof (names_polar name N) as NP. destruct (limit_spec name pl NP) as [(i0 & I0 & E0) B]. specialize (B i I6).
  assert (X : (0 <= nth k (values name pl i) 0 <= nth (top_of name - 1) (values name pl i) 0)%R); [|split; [lra|]; set (mx := maximum _) in *; lra].
  cbn [polar_names In] in NP. decompose [or False] NP; subst name; try congruence; unfold calculated, top_of, per_plane in *; cbn in K |- *.
  - assert (k = 0) by lia. subst k. cbn. destruct (C31_positive S (fst (cut_angles pl 360 i)) (snd (cut_angles pl 360 i)) 0 PD). lra.
  - set (th := fst (cut_angles pl 360 i)) in *. set (ph := snd (cut_angles pl 360 i)) in *.
    destruct (S2 (fun z => shear_modulus S th ph z)) as [z1 Z1]. destruct (S2 (fun z => (- shear_modulus S th ph z)%R)) as [z2 Z2].
    pose proof (S1 (fun z => shear_modulus S th ph z)) as L1. pose proof (S1 (fun z => (- shear_modulus S th ph z)%R)) as L2. cbv beta in *.
    pose proof (proj2 (C31_positive S th ph z1 PD)). pose proof (proj2 (C31_positive S th ph z2 PD)).
    destruct k as [|[|k]]; [| |lia]; cbn [nth]; lra.
  - destruct (W pl i) as (W1 & W2 & W3). destruct k as [|[|[|k]]]; [| | |lia]; cbn [nth]; lra.
Qed.
End Figures.

(** * Figures that do not show their curves *)
(** A stable crystal that is compressed along neither x nor y. *)
Definition stretched (p q : nat) : R :=
  match p, q with
  | 0, 0 => 4 | 0, 1 => -1 | 0, 2 => -5 | 1, 0 => -1 | 1, 1 => 4 | 1, 2 => -4 | 2, 0 => -5 | 2, 1 => -4 | 2, 2 => 15
  | 3, 3 => 1 | 4, 4 => 1 | 5, 5 => 1 | _, _ => 0
  end%R.
Lemma stretched_stable : positive_definite stretched.
Proof.
  intros x (p & Hp & Np). unfold energy, apply6. cbn [stretched].
  set (x0 := x 0) in *. set (x1 := x 1) in *. set (x2 := x 2) in *. set (x3 := x 3) in *. set (x4 := x 4) in *. set (x5 := x 5) in *.
  set (u := (x0 - x1 / 4 - 5 * x2 / 4)%R). set (v := (x1 - 7 / 5 * x2)%R).
  match goal with |- (0 < ?e)%R => replace e with (4 * (u * u) + 15 / 4 * (v * v) + 7 / 5 * (x2 * x2) + x3 * x3 + x4 * x4 + x5 * x5)%R by (unfold u, v; field) end.
  pose proof (Rle_0_sqr u). pose proof (Rle_0_sqr v). pose proof (Rle_0_sqr (x2)). pose proof (Rle_0_sqr (x3)). pose proof (Rle_0_sqr (x4)). pose proof (Rle_0_sqr (x5)).
  unfold Rsqr in *. apply Rnot_le_lt. intros L.
  assert (Z : forall t, (t * t <= 0)%R -> t = 0%R) by (intros; nra).
  assert (U : u = 0%R) by (apply Z; lra). assert (V : v = 0%R) by (apply Z; lra). assert (X2 : x2 = 0%R) by (apply Z; lra).
  assert (X3 : x3 = 0%R) by (apply Z; lra). assert (X4 : x4 = 0%R) by (apply Z; lra). assert (X5 : x5 = 0%R) by (apply Z; lra).
  unfold u, v in *. assert (X1 : x1 = 0%R) by lra. assert (X0 : x0 = 0%R) by lra. apply Np. do 6 (destruct p as [|p]; [assumption|]). lia.
Qed.
(** The outer limit of the compressibility is that of the positive values only:
    here it is 0, and the negative curve is everywhere at 1000 or more. *)
Lemma stretched_value a : loop_aakk (S_ijkl stretched) (vec3 (cos a) (sin a) 0) = (-2 * (cos a * cos a) - sin a * sin a)%R.
Proof.
  unfold loop_aakk, sum3. open_S. cbn [stretched vec3]. ring.
Qed.
Theorem C86_compressibility_refuted powell waves s density : polar s = true -> plotting s = true -> matplotlib s = true ->
  exists f c cv, positive_definite stretched /\
    In (basename s +++ "_LC.png", f) (fst (soec_figures s density (plane_tables powell waves (polar s) density stretched))) /\
    nth_error (cuts f) (place XY) = Some c /\ nth_error (words "LC") 1 = Some "Negative" /\ nth_error (curves c) 1 = Some cv /\ List.length cv = 360 /\
    rmax c = 0%R /\ forall pt, In pt cv -> (1000 <= snd pt)%R.
Proof.
  intros P Q M. destruct (C86_limit powell waves s density stretched "LC" P Q M ltac:(unfold figure_names; cbn; tauto)) as (f & I & C).
  destruct (saved_figure powell waves s density stretched "LC" P Q M ltac:(unfold figure_names; cbn; tauto)) as (f' & I' & L & LG & C').
  assert (f' = f).
  { destruct (C86_figures powell waves s density stretched) as (_ & ND & _). revert I I' ND. generalize (fst (soec_figures s density (plane_tables powell waves (polar s) density stretched))).
    clear. intros l. induction l as [|[a b] l IH]; intros A B ND; [destruct A|]. cbn [map fst] in ND. inversion ND as [|? ? N1 N2]; subst.
    destruct A as [A|A], B as [B|B]; [congruence| | |now apply IH].
    - injection A as -> ->. exfalso. apply N1. apply (in_map fst) in B. exact B.
    - injection B as -> ->. exfalso. apply N1. apply (in_map fst) in A. exact A. }
  subst f'. destruct (C XY) as (c & i & E & Hi & RM & _). exists f, c. rewrite C' in E. injection E as <-.
  exists (curve (rows powell waves stretched "LC" XY) 2). split; [exact stretched_stable|]. split; [exact I|]. split; [apply C'|]. split; [reflexivity|].
  split; [reflexivity|]. split; [apply curve_length|].
  assert (V : forall i, exists a b, calculated powell waves "LC" stretched XY i = [a; b] /\ a = 0%R /\ (1000 <= b)%R).
  { intros k. destruct (C68_compressibility_rows stretched XY 360 k) as (deg & a & b & R0 & A & B & AB & D). exists a, b.
    split; [unfold calculated; cbn [String.eqb Ascii.eqb Bool.eqb]; now rewrite R0|]. unfold cut_direction in D. rewrite stretched_value in D.
    pose proof (sin2_cos2 (deg * PI / 180)) as T. unfold Rsqr in T. pose proof (Rle_0_sqr (cos (deg * PI / 180))) as T'. unfold Rsqr in T'. nra. }
  split.
  - rewrite RM. destruct (V i) as (a & b & -> & -> & _). cbn. ring.
  - intros pt H. apply In_nth_error in H. destruct H as [k K]. assert (K6 : k < 360) by (rewrite <- (curve_length powell waves stretched "LC" XY 2); apply nth_error_Some; congruence).
    rewrite curve_point in K by exact K6. destruct (V k) as (a & b & VE & _ & B).
    rewrite VE in K. injection K as <-. exact B.
Qed.
(** An isotropic crystal with a negative Poisson's ratio. *)
Lemma auxetic_inverse : inverse6 (isotropic_C 1 3) (isotropic_S 1 3).
Proof.
  intros p r Hp Hr. split; [|apply isotropic_left; auto; lra]. unfold mul6, delta.
  do 6 (destruct p as [|p]; [do 6 (destruct r as [|r]; [cbn [isotropic_S isotropic_C Nat.eqb]; unfold young_textbook, poisson_textbook; field; lra|]); lia|]). lia.
Qed.
Theorem C86_auxetic_refuted powell waves s density : (forall f, exists z, powell f = f z) -> polar s = true -> plotting s = true -> matplotlib s = true ->
  exists f, In (basename s +++ "_Nu.png", f) (fst (soec_figures s density (plane_tables powell waves (polar s) density (isotropic_S 1 3)))) /\
  forall pl, exists c, nth_error (cuts f) (place pl) = Some c /\ List.length (curves c) = 3 /\
    forall cv pt, In cv (curves c) -> In pt cv -> (rmax c < snd pt)%R.
Proof.
  intros PW P Q M. destruct (saved_figure powell waves s density (isotropic_S 1 3) "Nu" P Q M ltac:(unfold figure_names; cbn; tauto)) as (f & I & L & LG & C).
  exists f. split; [exact I|]. intros pl. eexists. split; [apply C|]. split; [reflexivity|].
  assert (V : forall i, calculated powell waves "Nu" (isotropic_S 1 3) pl i = [-1 / 4; 0; -1 / 4]%R).
  { intros i. unfold calculated. cbn [String.eqb Ascii.eqb Bool.eqb]. unfold row_Nu, poisson_2d. cbn [tl fst snd].
    set (th := fst (cut_angles pl 360 i)). set (ph := snd (cut_angles pl 360 i)).
    destruct (PW (fun z => poisson_ratio (isotropic_S 1 3) th ph z)) as [z1 ->]. destruct (PW (fun z => - poisson_ratio (isotropic_S 1 3) th ph z)%R) as [z2 ->].
    assert (N : forall z, poisson_ratio (isotropic_S 1 3) th ph z = (-1 / 4)%R).
    { intros z. destruct (C29_isotropic 1 3 (isotropic_C 1 3) (isotropic_S 1 3) th ph z ltac:(lra) ltac:(lra) ltac:(reflexivity) auxetic_inverse) as (_ & _ & _ & _ & _ & _ & _ & _ & _ & ->).
      unfold poisson_textbook. field. }
    rewrite !N. rewrite Rmin_right, Rmax_left by lra. repeat f_equal; lra. }
  intros cv pt IC IP. cbn [polar_axis curves rmax] in *.
  destruct (limit_spec powell waves (isotropic_S 1 3) "Nu" pl ltac:(cbn; tauto)) as [(i & _ & E) _]. rewrite E, V.
  change (top_of "Nu" - 1) with 2. cbn [nth]. apply in_map_iff in IC. destruct IC as (k & <- & K). unfold columns_of in K. apply in_seq in K. cbn in K.
  apply In_nth_error in IP. destruct IP as [j J]. assert (J6 : j < 360) by (rewrite <- (curve_length powell waves (isotropic_S 1 3) "Nu" pl k); apply nth_error_Some; congruence).
  rewrite curve_point in J by exact J6. rewrite V in J. destruct k as [|[|[|[|k]]]]; try lia; injection J as <-; cbn [snd]; lra.
Qed.
(** v_s1 is the slower shear wave in the elastic figures, and the faster one in
    the seismic figures. *)
Theorem C86_names_refuted powell waves s density S : ascending waves -> (0 < density)%R -> polar s = true -> plotting s = true -> matplotlib s = true ->
  (exists f, In (basename s +++ "_waves.png", f) (fst (soec_figures s density (plane_tables powell waves (polar s) density S))) /\
    nth_error (legend f) 0 = Some "$v_{s1}$" /\ nth_error (legend f) 1 = Some "$v_{s2}$" /\
    forall pl c, nth_error (cuts f) (place pl) = Some c -> exists cv cv', nth_error (curves c) 0 = Some cv /\ nth_error (curves c) 1 = Some cv' /\
      forall i pt pt', nth_error cv i = Some pt -> nth_error cv' i = Some pt' -> (snd pt <= snd pt')%R) /\
  forall base slow fast prim ntheta nphi, 2 <= ntheta -> 2 <= nphi -> SeismicFigureProps.sampled ntheta nphi slow -> SeismicFigureProps.sampled ntheta nphi fast ->
    SeismicFigureProps.sampled ntheta nphi prim -> exists a b c,
    In (SeismicPlotModel.Save (base +++ "_ratios_2D.png") (SeismicPlotModel.Flat [a; b; c]))
      (fst (SeismicPlotModel.run (SeismicFigureProps.the_plotter base slow fast prim ntheta nphi) SeismicPlotModel.Stereo true true true true)) /\
    SeismicPlotModel.label b = "$v_P / v_{s1}$" /\
    SeismicFigureProps.maps ntheta nphi SeismicPlotModel.Stereo
      (fun t p => SeismicFigureProps.result nphi prim 3 t p / SeismicFigureProps.result nphi fast 3 t p)%R b.
Proof.
  intros W D P Q M. split.
  - assert (N : In "waves" (figure_names density)) by (unfold figure_names; destruct (Rlt_dec 0 density); [cbn; tauto|contradiction]).
    destruct (saved_figure powell waves s density S "waves" P Q M N) as (f & I & L & LG & C). exists f. split; [exact I|]. rewrite LG.
    split; [reflexivity|]. split; [reflexivity|]. intros pl c E. rewrite C in E. injection E as <-. eexists. eexists. split; [reflexivity|]. split; [reflexivity|].
    intros i pt pt' A B. assert (I6 : i < 360) by (rewrite <- (curve_length powell waves S "waves" pl 1); apply nth_error_Some; congruence).
    rewrite curve_point in A, B by exact I6. injection A as <-. injection B as <-. cbn [snd nth]. destruct (W pl i) as (_ & X & _). exact X.
  - intros base slow fast prim ntheta nphi T PH S0 S1 S2.
    destruct (SeismicFigureProps.C84_ratios base slow fast prim ntheta nphi T PH S0 S1 S2 SeismicPlotModel.Stereo true true true) as (a & b & c & I & _ & (LB & MB & _) & _).
    exists a, b, c. split; [now apply I|]. split; assumption.
Qed.
(** The option for figures without the one for polar properties is ignored, and
    nothing is said. *)
Theorem C86_plot_alone_refuted powell waves density S base : 
  fst (soec_figures {| polar := false; plotting := true; matplotlib := true; basename := base |} density (plane_tables powell waves false density S)) = [] /\
  forall eigv, run {| polar := false; plotting := true; matplotlib := true; basename := base |} density eigv =
    run {| polar := false; plotting := false; matplotlib := true; basename := base |} density eigv.
Proof. split; reflexivity. Qed.

(** * Instances *)
Definition shown : settings := {| polar := true; plotting := true; matplotlib := true; basename := "hydroxylapatite" |}.
Example C86_instance : exists f,
  map fst (fst (soec_figures shown 3000 (plane_tables first_value flat_waves true 3000 (isotropic_S 3 1)))) =
    ["hydroxylapatite_E.png"; "hydroxylapatite_LC.png"; "hydroxylapatite_G.png"; "hydroxylapatite_Nu.png"; "hydroxylapatite_waves.png"] /\
  In ("hydroxylapatite_G.png", f) (fst (soec_figures shown 3000 (plane_tables first_value flat_waves true 3000 (isotropic_S 3 1)))) /\
  map text (cuts f) = ["Shear modulus (xy)"; "Shear modulus (xz)"; "Shear modulus (yz)"] /\ legend f = ["Minimum"; "Maximum"].
Proof.
  unfold soec_figures, plane_tables. destruct (Rlt_dec 0 3000) as [D|D]; [|exfalso; lra]. eexists. split; [reflexivity|].
  split; [right; right; left; reflexivity|]. split; reflexivity.
Qed.
Example C86_inside_instance : search_ok first_value /\ ascending flat_waves /\ positive_definite stretched.
Proof.
  split; [|split; [|exact stretched_stable]].
  - split; [intros f; unfold first_value; lra|]. intros f. now exists (PI / 2)%R.
  - intros pl i. unfold flat_waves. cbn. lra.
Qed.

Print Assumptions C86_figures.
Print Assumptions C86_values.
Print Assumptions C86_limit.
Print Assumptions C86_inside.
Print Assumptions C86_compressibility_refuted.
Print Assumptions C86_auxetic_refuted.
Print Assumptions C86_names_refuted.
Print Assumptions C86_plot_alone_refuted.
