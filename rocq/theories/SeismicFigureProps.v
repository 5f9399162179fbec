(** C84: which value is drawn where. *)
From Coq Require Import Reals String Ascii List Bool Arith ZArith Lia Lra FunctionalExtensionality.
From Verif Require Import Py DecimalModel DecimalProofs FormatModel FormatProofs SymmetryModel TensorModel TensorProps AverageProps QhaRunModel SeismicModel SeismicLinear SeismicProps SeismicObjProps SeismicIsoProps TableModel SoecTableModel SeismicTableModel SeismicTableProps SeismicPlotModel SeismicPlotProofs SeismicPlotProps.
Import ListNotations.
Open Scope string_scope.
Open Scope list_scope.
Open Scope nat_scope.

(** * Statements *)
(** A matrix with the 14 results of every node, in the order of the loops. *)
Definition sampled (ntheta nphi : nat) (rows : list (list R)) : Prop :=
  List.length rows = ntheta * nphi /\ Forall (fun r => List.length r = 14) rows /\
  forall t p, t < ntheta -> p < nphi ->
    nth 0 (nth (t * nphi + p) rows []) 0%R = theta_at ntheta t /\ nth 1 (nth (t * nphi + p) rows []) 0%R = phi_at nphi p.
(** Result number k (counted from 1 as in the description stored in the file) of
    node (t, p). *)
Definition result (nphi : nat) (rows : list (list R)) (k t p : nat) : R := nth (k - 1) (nth (t * nphi + p) rows []) 0%R.
(** The quantities drawn: end of the file name, number of the result, its line in
    the description of the file, text at the scales of the maps. *)
Definition drawn : list (string * (nat * string * string)) :=
  [("Vp", (3, "  - Column 3     : Phase velocity (km s^-1)", "$v_p \: (km \: s^{-1})$"));
   ("Vp_rel", (4, "  - Column 4     : Relative phase velocity (%)", "$v_p - v_{iso} \: (\%)$"));
   ("Vg", (8, "  - Column 8     : Group velocity (km s^-1)", "$v_g \: (km \: s^{-1})$"));
   ("Vg_rel", (9, "  - Column 9     : Relative group velocity (%)", "$v_g - v_{iso} \: (\%)$"));
   ("pf_angle", (13, "  - Column 13    : Powerflow angle (degree)", "$\psi \: (°)}$"));
   ("enhancement_factor", (14, "  - Column 14    : Enhancement factor (log_10A)", "$\log_{10}(A)$"))].
(** Velocities and angles as they are, the enhancement factor by its decimal
    logarithm. *)
Definition on_scale (k : nat) (x : R) : R := if (k =? 14)%nat then (ln x / ln 10)%R else x.
Definition wave_names : list (string * string) := [("ssecondary", "Slow Secondary"); ("fsecondary", "Fast Secondary"); ("primary", "Primary")].
(** A map of a quantity h over the nodes: each value at the place of its own
    direction. *)
Definition maps (ntheta nphi : nat) (pr : projection) (h : nat -> nat -> R) (pn : panel) : Prop :=
  forall t p, t < ntheta -> p < nphi ->
    (at_ (px pn) t p, at_ (py pn) t p) = seen pr (on_sphere (theta_at ntheta t) (phi_at nphi p)) /\ at_ (pz pn) t p = h t p.
(** The square is at the first greatest value, the circle at the first least. *)
Definition marks (ntheta nphi : nat) (pr : projection) (h : nat -> nat -> R) (pn : panel) : Prop :=
  (exists t p, t < ntheta /\ p < nphi /\ square pn = Some (seen pr (on_sphere (theta_at ntheta t) (phi_at nphi p))) /\
     forall t' p', t' < ntheta -> p' < nphi -> (h t' p' <= h t p)%R /\ (t' * nphi + p' < t * nphi + p -> (h t' p' < h t p)%R)) /\
  (exists t p, t < ntheta /\ p < nphi /\ circle pn = Some (seen pr (on_sphere (theta_at ntheta t) (phi_at nphi p))) /\
     forall t' p', t' < ntheta -> p' < nphi -> (h t p <= h t' p')%R /\ (t' * nphi + p' < t * nphi + p -> (h t p < h t' p')%R)).

(** * Reading the file *)
Lemma leading_zeros_spec l n : (forall j, j < n -> nth j l 0%R = 0%R) -> n < List.length l -> nth n l 0%R <> 0%R -> leading_zeros l = Ok n.
Proof.
  revert n. induction l as [|x l IH]; intros n A B D; cbn [List.length leading_zeros] in *; [lia|]. destruct n as [|n].
  - cbn in D. destruct (Req_EM_T x 0); [congruence|reflexivity].
  - specialize (A 0 ltac:(lia)) as A0. cbn in A0. destruct (Req_EM_T x 0); [|congruence]. rewrite (IH n); [reflexivity| |lia|exact D].
    intros j J. apply (A (S j)). lia.
Qed.
Lemma theta_pos ntheta t : 2 <= ntheta -> 0 < t -> (0 < theta_at ntheta t)%R.
Proof.
  intros A B. unfold theta_at. pose proof PI_RGT_0. apply le_INR in A. apply lt_INR in B. cbn [INR] in A, B.
  apply Rmult_lt_0_compat; [lra|]. apply Rdiv_lt_0_compat; lra.
Qed.
Lemma theta_range ntheta t : 2 <= ntheta -> t < ntheta -> (0 <= theta_at ntheta t <= PI / 2)%R.
Proof.
  intros A B. unfold theta_at. pose proof PI_RGT_0. assert (L : (INR t <= INR ntheta - 1)%R).
  { change 1%R with (INR 1). rewrite <- minus_INR by lia. apply le_INR. lia. }
  apply le_INR in A. cbn [INR] in A. pose proof (pos_INR t).
  assert (Q : (0 <= INR t / (INR ntheta - 1) <= 1)%R).
  { split; [apply Rle_mult_inv_pos; lra|]. apply Rmult_le_reg_r with (INR ntheta - 1)%R; [lra|]. field_simplify; lra. }
  nra.
Qed.

Section Figures.
Variables (base : string) (slow fast prim : list (list R)) (ntheta nphi : nat).
Hypotheses (NT : 2 <= ntheta) (NP : 2 <= nphi).
Hypotheses (Ss : sampled ntheta nphi slow) (Sf : sampled ntheta nphi fast) (Sp : sampled ntheta nphi prim).
Notation file := (seismic_file "GPa" slow fast prim).
Definition the_plotter : plotter := {| source := file; basename := base; p_ntheta := ntheta; p_nphi := nphi |}.
Notation P := the_plotter.

Lemma stored_column k rows : sampled ntheta nphi rows -> k < 14 -> forallb (fun r => k <? List.length r) rows = true.
Proof. intros (_ & F & _) K. apply forallb_forall. intros r I. rewrite Forall_forall in F. rewrite (F r I). now apply Nat.ltb_lt. Qed.
Definition wave_rows (i : nat) : list (list R) := nth i [slow; fast; prim] [].
Lemma wave_sampled i : i < 3 -> sampled ntheta nphi (wave_rows i).
Proof. intros H. destruct i as [|[|[|i]]]; [exact Ss|exact Sf|exact Sp|lia]. Qed.
Lemma get_column i wave name k : nth_error wave_names i = Some (wave, name) -> k < 14 ->
  get_data_column file wave k = Ok (map (fun r => nth k r 0%R) (wave_rows i)).
Proof.
  intros H K. assert (I : i < 3) by (change 3 with (List.length wave_names); apply nth_error_Some; rewrite H; discriminate).
  pose proof (stored_column k _ (wave_sampled i I) K) as F.
  destruct i as [|[|[|i]]]; [| | |lia]; injection H as <- <-; unfold get_data_column, wave_rows in *; cbn [find datasets seismic_file nth] in *;
    cbn; cbn in F; now rewrite F.
Qed.
Lemma column_ok i wave name k : nth_error wave_names i = Some (wave, name) -> k < 14 ->
  column P wave k = Ok (rows_of ntheta nphi (map (fun r => nth k r 0%R) (wave_rows i))).
Proof.
  intros H K. assert (I : i < 3) by (change 3 with (List.length wave_names); apply nth_error_Some; rewrite H; discriminate).
  unfold column. cbn [source the_plotter]. rewrite (get_column i wave name k H K). cbn [QhaRunModel.bind]. unfold reshape. cbn [p_ntheta p_nphi the_plotter].
  destruct (wave_sampled i I) as (L & _ & _). rewrite map_length, L, Nat.eqb_refl. reflexivity.
Qed.
Lemma node_index t p : t < ntheta -> p < nphi -> t * nphi + p < ntheta * nphi.
Proof. intros A B. nia. Qed.
Lemma column_at i k t p : i < 3 -> k < 14 -> t < ntheta -> p < nphi ->
  at_ (rows_of ntheta nphi (map (fun r => nth k r 0%R) (wave_rows i))) t p = result nphi (wave_rows i) (S k) t p.
Proof.
  intros I K T Q. rewrite rows_of_at by assumption. unfold result. destruct (wave_sampled i I) as (L & _ & _).
  rewrite (nth_map _ _ _ []) by (rewrite L; now apply node_index). f_equal. lia.
Qed.
(** read_data finds the two numbers of angles. *)
Theorem C84_loads : contains "_SEISMIC" base = false -> contains ".hdf5" base = false ->
  read_data (base +++ "_SEISMIC.hdf5") (Some file) = Loaded P.
Proof.
  intros B1 B2. unfold read_data. cbn [reader_info info seismic_file].
  match goal with |- context [contains "Phase velocity" ?x] => assert (Q : contains "Phase velocity" x = true) by (vm_compute; reflexivity) end.
  rewrite Q. cbn [negb]. rewrite result_basename by assumption.
  rewrite (get_column 2 "primary" "Primary" 0 eq_refl ltac:(lia)). change (wave_rows 2) with prim.
  destruct Sp as (L & F & V).
  assert (LZ : leading_zeros (map (fun r => nth 0 r 0%R) prim) = Ok nphi).
  { apply leading_zeros_spec.
    - intros j J. rewrite (nth_map _ _ _ []) by (rewrite L; nia). destruct (V 0 j ltac:(lia) J) as [E _]. cbn [Nat.mul Nat.add] in E. rewrite E.
      unfold theta_at. cbn [INR]. unfold Rdiv. ring.
    - rewrite map_length, L. nia.
    - rewrite (nth_map _ _ _ []) by (rewrite L; nia). destruct (V 1 0 ltac:(lia) ltac:(lia)) as [E _].
      replace (1 * nphi + 0) with nphi in E by lia. rewrite E. apply Rgt_not_eq, theta_pos; lia. }
  rewrite LZ, map_length, L, Nat.div_mul by lia. unfold the_plotter. destruct nphi; [lia|reflexivity].
Qed.

(** * Coordinates *)
Lemma u_theta t : u_ P t = theta_at ntheta t.
Proof.
  unfold u_, mgrid, theta_at. cbn [p_ntheta the_plotter]. destruct (Nat.eqb_spec ntheta 1); [lia|]. rewrite minus_INR by lia. cbn [INR].
  apply le_INR in NT. cbn [INR] in NT. field. lra.
Qed.
Lemma v_phi p : v_ P p = phi_at nphi p.
Proof.
  unfold v_, mgrid, phi_at. cbn [p_nphi the_plotter]. destruct (Nat.eqb_spec nphi 1); [lia|]. rewrite minus_INR by lia. cbn [INR].
  apply le_INR in NP. cbn [INR] in NP. field. lra.
Qed.
Lemma place pr t p : t < ntheta -> p < nphi ->
  (at_ (plane_x P pr) t p, at_ (plane_y P pr) t p) = seen pr (on_sphere (theta_at ntheta t) (phi_at nphi p)).
Proof.
  intros A B. unfold plane_x, plane_y, mesh. cbn [p_ntheta p_nphi the_plotter]. rewrite !on_grid_at by assumption. rewrite u_theta, v_phi.
  rewrite <- surjective_pairing. apply plane_seen, theta_range; lia.
Qed.

(** * Marks *)
Section Mark.
Variables (pr : projection) (l : list R).
Hypothesis L : List.length l = ntheta * nphi.
Lemma nonempty : l <> [].
Proof. intros E. rewrite E in L. cbn in L. nia. Qed.
Lemma unravel_ok r : r < ntheta * nphi -> exists t p, t < ntheta /\ p < nphi /\ r = t * nphi + p /\ unravel nphi r = (t, p).
Proof.
  intros H. exists (r / nphi), (r mod nphi). unfold unravel. split; [apply Nat.div_lt_upper_bound; nia|].
  split; [apply Nat.mod_upper_bound; lia|]. split; [rewrite (Nat.div_mod_eq r nphi) at 1; lia|reflexivity].
Qed.
Lemma mark_at better : arg better l < List.length l -> exists t p, t < ntheta /\ p < nphi /\ arg better l = t * nphi + p /\
  mark P pr better (rows_of ntheta nphi l) = Ok (seen pr (on_sphere (theta_at ntheta t) (phi_at nphi p))).
Proof.
  intros H. rewrite L in H. destruct (unravel_ok _ H) as (t & p & A & B & E & U). exists t, p. split; [exact A|]. split; [exact B|]. split; [exact E|].
  unfold mark. rewrite rows_of_flat by exact L. pose proof nonempty as NE. cbn [p_nphi the_plotter]. rewrite U.
  assert (G : forall A (x y : A), match l with [] => x | _ => y end = y) by (intros; destruct l; [now destruct NE|reflexivity]).
  rewrite G. f_equal. now apply place.
Qed.
Lemma mark_high : exists t p, t < ntheta /\ p < nphi /\ mark P pr gtb (rows_of ntheta nphi l) = Ok (seen pr (on_sphere (theta_at ntheta t) (phi_at nphi p))) /\
  grid_max (rows_of ntheta nphi l) = nth (t * nphi + p) l 0%R /\
  forall t' p', t' < ntheta -> p' < nphi -> (nth (t' * nphi + p') l 0 <= nth (t * nphi + p) l 0)%R /\
    (t' * nphi + p' < t * nphi + p -> (nth (t' * nphi + p') l 0 < nth (t * nphi + p) l 0)%R).
Proof.
  destruct (argmax_spec l nonempty) as (A & B & D). destruct (mark_at gtb A) as (t & p & Ht & Hp & E & M). exists t, p.
  split; [exact Ht|]. split; [exact Hp|]. split; [exact M|]. split; [unfold grid_max; rewrite rows_of_flat by exact L; now rewrite E|].
  rewrite E in *. intros t' p' T' P'. split; [apply B; rewrite L; now apply node_index|apply D].
Qed.
Lemma mark_low : exists t p, t < ntheta /\ p < nphi /\ mark P pr ltb (rows_of ntheta nphi l) = Ok (seen pr (on_sphere (theta_at ntheta t) (phi_at nphi p))) /\
  grid_min (rows_of ntheta nphi l) = nth (t * nphi + p) l 0%R /\
  forall t' p', t' < ntheta -> p' < nphi -> (nth (t * nphi + p) l 0 <= nth (t' * nphi + p') l 0)%R /\
    (t' * nphi + p' < t * nphi + p -> (nth (t * nphi + p) l 0 < nth (t' * nphi + p') l 0)%R).
Proof.
  destruct (argmin_spec l nonempty) as (A & B & D). destruct (mark_at ltb A) as (t & p & Ht & Hp & E & M). exists t, p.
  split; [exact Ht|]. split; [exact Hp|]. split; [exact M|]. split; [unfold grid_min; rewrite rows_of_flat by exact L; now rewrite E|].
  rewrite E in *. intros t' p' T' P'. split; [apply B; rewrite L; now apply node_index|apply D].
Qed.
End Mark.

(** * The figures *)
(** Values of quantity k of wave i. *)
Definition level (i k t p : nat) : R := on_scale k (result nphi (wave_rows i) k t p).
Definition vp_quantity : quantity :=
  {| q_column := 2; q_name := "phase velocity"; q_label3 := "$\huge{v_p \: (km \: s^{-1})}$"; q_label2 := "$v_p \: (km \: s^{-1})$"; q_suffix := "Vp";
     q_cmin := no_limit; q_cmax := no_limit; q_levels := 10; q_anisotropy := true |}.
Lemma drawn_quantity suffix k line text : In (suffix, (k, line, text)) drawn ->
  exists q, In q quantities /\ q_suffix q = suffix /\ q_column q = k - 1 /\ q_label2 q = text /\ 1 <= k <= 14 /\ q_anisotropy q = (k =? 3) || (k =? 8).
Proof.
  intros H. cbn [drawn In] in H. decompose [or False] H; match goal with E : (_, _) = _ |- _ => injection E as <- <- <- <- end;
    [pose (j := 0)|pose (j := 1)|pose (j := 2)|pose (j := 3)|pose (j := 4)|pose (j := 5)];
    (exists (nth j quantities vp_quantity); split; [apply nth_In; cbn; lia|repeat split; try reflexivity; lia]).
Qed.
Lemma quantity_drawn q : In q quantities -> exists line, In (q_suffix q, (S (q_column q), line, q_label2 q)) drawn /\ q_column q < 14.
Proof. intros H. cbn [quantities In] in H. decompose [or False] H; subst q; (eexists; split; [cbn; tauto|cbn; lia]). Qed.
Lemma shown_ok q i wave name : In q quantities -> nth_error wave_names i = Some (wave, name) ->
  exists l, shown P q wave = Ok (rows_of ntheta nphi l) /\ List.length l = ntheta * nphi /\
    forall t p, t < ntheta -> p < nphi -> nth (t * nphi + p) l 0%R = level i (S (q_column q)) t p.
Proof.
  intros Q H. assert (I : i < 3) by (change 3 with (List.length wave_names); apply nth_error_Some; rewrite H; discriminate).
  destruct (quantity_drawn q Q) as (_ & _ & K). destruct (wave_sampled i I) as (L & _ & _).
  unfold shown. rewrite (column_ok i wave name _ H K). cbn [QhaRunModel.bind].
  assert (V : forall t p, t < ntheta -> p < nphi -> nth (t * nphi + p) (map (fun r => nth (q_column q) r 0%R) (wave_rows i)) 0%R = result nphi (wave_rows i) (S (q_column q)) t p).
  { intros t p T Pp. rewrite <- (column_at i _ t p I K T Pp), rows_of_at by assumption. reflexivity. }
  unfold level, on_scale. change (S (q_column q) =? 14)%nat with (q_column q =? 13)%nat. destruct (q_column q =? 13)%nat.
  - eexists. split; [rewrite map_rows_of; reflexivity|]. split; [now rewrite !map_length|]. intros t p T Pp.
    rewrite (nth_map log10 _ _ 0%R) by (rewrite map_length, L; now apply node_index). rewrite V by assumption. reflexivity.
  - eexists. split; [reflexivity|]. split; [now rewrite map_length|]. exact V.
Qed.
Lemma panel_ok pr q i wave name : In q quantities -> nth_error wave_names i = Some (wave, name) ->
  exists pn said, panel_2D P pr q (wave, name) = Ok (pn, said) /\ title pn = name /\ label pn = q_label2 q /\
    maps ntheta nphi pr (level i (S (q_column q))) pn /\ marks ntheta nphi pr (level i (S (q_column q))) pn /\
    exists hi lo, fst hi < ntheta /\ snd hi < nphi /\ fst lo < ntheta /\ snd lo < nphi /\ square pn = Some (seen pr (on_sphere (theta_at ntheta (fst hi)) (phi_at nphi (snd hi)))) /\
      circle pn = Some (seen pr (on_sphere (theta_at ntheta (fst lo)) (phi_at nphi (snd lo)))) /\
      (forall t p, t < ntheta -> p < nphi -> (level i (S (q_column q)) (fst lo) (snd lo) <= level i (S (q_column q)) t p <= level i (S (q_column q)) (fst hi) (snd hi))%R) /\
      said = if q_anisotropy q then
          let M := level i (S (q_column q)) (fst hi) (snd hi) in let m := level i (S (q_column q)) (fst lo) (snd lo) in
          [Say ("   * " +++ pad_left 15 name +++ ": anisotropy = " +++ fmt_f 5 1 (200 * (M - m) / (M + m))%R +++ " %")] else [].
Proof.
  intros Q H. destruct (shown_ok q i wave name Q H) as (l & E & L & V).
  destruct (mark_high pr l L) as (t1 & p1 & T1 & P1 & M1 & G1 & X1). destruct (mark_low pr l L) as (t2 & p2 & T2 & P2 & M2 & G2 & X2).
  rewrite V in G1, G2 by assumption.
  eexists. eexists. split; [unfold panel_2D; rewrite E; cbn [QhaRunModel.bind]; rewrite M1; cbn [QhaRunModel.bind]; rewrite M2; cbn [QhaRunModel.bind]; reflexivity|].
  cbn [title label px py pz square circle]. split; [reflexivity|]. split; [reflexivity|]. split.
  { intros t p T Pp. split; [now apply place|]. cbn [pz]. rewrite rows_of_at by assumption. now apply V. }
  assert (Y1 : forall t' p', t' < ntheta -> p' < nphi -> (level i (S (q_column q)) t' p' <= level i (S (q_column q)) t1 p1)%R /\
     (t' * nphi + p' < t1 * nphi + p1 -> (level i (S (q_column q)) t' p' < level i (S (q_column q)) t1 p1)%R)).
  { intros t' p' T' P'. specialize (X1 t' p' T' P'). rewrite !V in X1 by assumption. exact X1. }
  assert (Y2 : forall t' p', t' < ntheta -> p' < nphi -> (level i (S (q_column q)) t2 p2 <= level i (S (q_column q)) t' p')%R /\
     (t' * nphi + p' < t2 * nphi + p2 -> (level i (S (q_column q)) t2 p2 < level i (S (q_column q)) t' p')%R)).
  { intros t' p' T' P'. specialize (X2 t' p' T' P'). rewrite !V in X2 by assumption. exact X2. }
  split; [split; [exists t1, p1|exists t2, p2]; cbn [square circle]; auto|].
  exists (t1, p1), (t2, p2). cbn [fst snd]. do 4 (split; [assumption|]). split; [reflexivity|]. split; [reflexivity|].
  split; [intros t p T Pp; split; [now apply Y2|now apply Y1]|]. unfold anisotropy. rewrite G1, G2. reflexivity.
Qed.
Lemma panels_ok pr q : In q quantities -> exists said panels, panels_2D P pr q wave_titles = (said, Ok panels) /\ List.length panels = 3 /\
  (forall i pn, nth_error panels i = Some pn -> exists wave, nth_error wave_names i = Some (wave, title pn) /\
    exists s, panel_2D P pr q (wave, title pn) = Ok (pn, s) /\ incl s said) /\ Forall (fun e => exists m, e = Say m) said.
Proof.
  intros Q. unfold wave_titles. fold wave_names.
  assert (G : forall ws, incl ws wave_names -> exists said panels, panels_2D P pr q ws = (said, Ok panels) /\ List.length panels = List.length ws /\
    (forall i pn, nth_error panels i = Some pn -> exists wave, nth_error ws i = Some (wave, title pn) /\ exists s, panel_2D P pr q (wave, title pn) = Ok (pn, s) /\ incl s said) /\
    Forall (fun e => exists m, e = Say m) said).
  { induction ws as [|[wave name] ws IH]; intros W.
    - exists [], []. repeat split; [|constructor]. intros [|i] pn X; discriminate X.
    - destruct (In_nth_error wave_names (wave, name) (W _ (or_introl eq_refl))) as [k K].
      destruct (panel_ok pr q k wave name Q K) as (pn & s & E & T & _ & _ & _ & (hi & lo & _ & _ & _ & _ & _ & _ & _ & SS)).
      destruct (IH ltac:(intros x X; apply W; now right)) as (said & panels & E' & L' & V' & F').
      exists (s ++ said), (pn :: panels). cbn [panels_2D]. rewrite E, E'. cbn [QhaRunModel.bind]. split; [reflexivity|]. split; [cbn; lia|]. split.
      + intros [|i] pn' X; cbn [nth_error] in X |- *.
        * injection X as <-. exists wave. rewrite T. split; [reflexivity|]. exists s. split; [exact E|]. intros x I. apply in_or_app. now left.
        * destruct (V' i pn' X) as (w & N & s' & Es & Is). exists w. split; [exact N|]. exists s'. split; [exact Es|]. intros x I. apply in_or_app. right. now apply Is.
      + apply Forall_app. split; [|exact F']. rewrite SS. destruct (q_anisotropy q); [repeat constructor; eauto|constructor]. }
  apply (G wave_names (incl_refl _)).
Qed.
Lemma make_2D_ok pr q : In q quantities -> exists said panels, make_2D_plot P pr q = (said ++ [Save (base +++ "_" +++ q_suffix q +++ "_2D_" +++ projection_name pr +++ ".png") (Flat panels)], None) /\
  panels_2D P pr q wave_titles = (said, Ok panels).
Proof.
  intros Q. destruct (panels_ok pr q Q) as (said & panels & E & _). exists said, panels. unfold make_2D_plot. rewrite E. split; reflexivity.
Qed.
Lemma make_3D_ok q : In q quantities -> exists f, make_3D_plot P q = (f, None) /\
  forall i wave name, nth_error wave_names i = Some (wave, name) -> exists l,
    shown P q wave = Ok (rows_of ntheta nphi l) /\ incl (fst (figure_3D P q (wave, name))) f.
Proof.
  intros Q. unfold make_3D_plot. rewrite each_done.
  - eexists. split; [reflexivity|]. intros i wave name H. destruct (shown_ok q i wave name Q H) as (l & E & _). exists l. split; [exact E|].
    intros x X. apply in_flat_map. exists (wave, name). split; [apply (nth_error_In _ i), H|exact X].
  - intros [wave name] I. apply In_nth_error in I. destruct I as [i H]. destruct (shown_ok q i wave name Q H) as (l & E & _).
    unfold figure_3D. now rewrite E.
Qed.
Lemma ratio_ok pr text l : List.length l = ntheta * nphi -> exists pn, ratio_panel P pr text (rows_of ntheta nphi l) = Ok pn /\ label pn = text /\
  maps ntheta nphi pr (fun t p => nth (t * nphi + p) l 0%R) pn /\ marks ntheta nphi pr (fun t p => nth (t * nphi + p) l 0%R) pn.
Proof.
  intros L. destruct (mark_high pr l L) as (t1 & p1 & T1 & P1 & M1 & G1 & X1). destruct (mark_low pr l L) as (t2 & p2 & T2 & P2 & M2 & G2 & X2).
  eexists. split; [unfold ratio_panel; rewrite M1; cbn [QhaRunModel.bind]; rewrite M2; cbn [QhaRunModel.bind]; reflexivity|].
  cbn [label]. split; [reflexivity|]. split.
  - intros t p T Pp. split; [now apply place|]. cbn [pz]. now apply rows_of_at.
  - split; [exists t1, p1|exists t2, p2]; cbn [square circle]; auto.
Qed.
Lemma velocities i : i < 3 -> exists l, List.length l = ntheta * nphi /\
  (forall wave name, nth_error wave_names i = Some (wave, name) -> column P wave 2 = Ok (rows_of ntheta nphi l)) /\
  forall t p, t < ntheta -> p < nphi -> nth (t * nphi + p) l 0%R = result nphi (wave_rows i) 3 t p.
Proof.
  intros I. destruct (wave_sampled i I) as (L & _ & _). exists (map (fun r => nth 2 r 0%R) (wave_rows i)). split; [now rewrite map_length|]. split.
  - intros wave name H. apply (column_ok i wave name 2 H). lia.
  - intros t p T Pp. rewrite <- (column_at i 2 t p I ltac:(lia) T Pp), rows_of_at by assumption. reflexivity.
Qed.
Lemma maps_ext pr h h' pn : (forall t p, t < ntheta -> p < nphi -> h t p = h' t p) -> maps ntheta nphi pr h pn -> maps ntheta nphi pr h' pn.
Proof. intros E H t p T Q. destruct (H t p T Q) as [A B]. split; [exact A|]. now rewrite B, E. Qed.
Lemma marks_ext pr h h' pn : (forall t p, t < ntheta -> p < nphi -> h t p = h' t p) -> marks ntheta nphi pr h pn -> marks ntheta nphi pr h' pn.
Proof.
  intros E [(t & p & A & B & S1 & M1) (t2 & p2 & A2 & B2 & S2 & M2)]. split.
  - exists t, p. split; [exact A|]. split; [exact B|]. split; [exact S1|]. intros t' p' X Y. rewrite <- !E by assumption. now apply M1.
  - exists t2, p2. split; [exact A2|]. split; [exact B2|]. split; [exact S2|]. intros t' p' X Y. rewrite <- !E by assumption. now apply M2.
Qed.
Lemma ratios_ok pr : exists a b c, make_2D_plot_ratios P pr = ([Save (base +++ "_ratios_2D.png") (Flat [a; b; c])], None) /\
  let slow_v := result nphi slow 3 in let fast_v := result nphi fast 3 in let prim_v := result nphi prim 3 in
  (label a = "S-wave anisotropy (%)" /\ maps ntheta nphi pr (fun t p => 200 * (fast_v t p - slow_v t p) / (fast_v t p + slow_v t p))%R a /\
     marks ntheta nphi pr (fun t p => 200 * (fast_v t p - slow_v t p) / (fast_v t p + slow_v t p))%R a) /\
  (label b = "$v_P / v_{s1}$" /\ maps ntheta nphi pr (fun t p => prim_v t p / fast_v t p)%R b /\ marks ntheta nphi pr (fun t p => prim_v t p / fast_v t p)%R b) /\
  (label c = "$v_P / v_{s2}$" /\ maps ntheta nphi pr (fun t p => prim_v t p / slow_v t p)%R c /\ marks ntheta nphi pr (fun t p => prim_v t p / slow_v t p)%R c).
Proof.
  destruct (velocities 0 ltac:(lia)) as (ls & L0 & C0 & V0). destruct (velocities 1 ltac:(lia)) as (lf & L1 & C1 & V1).
  destruct (velocities 2 ltac:(lia)) as (lp & L2 & C2 & V2).
  change (wave_rows 0) with slow in V0. change (wave_rows 1) with fast in V1. change (wave_rows 2) with prim in V2.
  destruct (ratio_ok pr "S-wave anisotropy (%)" (map2 anisotropy ls lf) ltac:(rewrite map2_length; lia)) as (a & Ea & Ta & Ma & Ka).
  destruct (ratio_ok pr "$v_P / v_{s1}$" (map2 Rdiv lp lf) ltac:(rewrite map2_length; lia)) as (b & Eb & Tb & Mb & Kb).
  destruct (ratio_ok pr "$v_P / v_{s2}$" (map2 Rdiv lp ls) ltac:(rewrite map2_length; lia)) as (c & Ec & Tc & Mc & Kc).
  exists a, b, c. split.
  { unfold make_2D_plot_ratios. rewrite (C2 "primary" "Primary" eq_refl). cbn [with_]. rewrite (C1 "fsecondary" "Fast Secondary" eq_refl). cbn [with_].
    rewrite (C0 "ssecondary" "Slow Secondary" eq_refl). cbn [with_]. rewrite !map2_rows_of, Ea. cbn [with_]. rewrite Eb. cbn [with_]. rewrite Ec. reflexivity. }
  assert (X : forall g x y, List.length x = ntheta * nphi -> List.length y = ntheta * nphi -> forall t p, t < ntheta -> p < nphi ->
     nth (t * nphi + p) (map2 g x y) 0%R = g (nth (t * nphi + p) x 0%R) (nth (t * nphi + p) y 0%R)).
  { intros g x y Lx Ly t p T Pp. apply map2_nth; [lia|]. rewrite Lx. now apply node_index. }
  cbv zeta. split; [split; [exact Ta|]|split; (split; [assumption|])].
  - assert (E : forall t p, t < ntheta -> p < nphi -> nth (t * nphi + p) (map2 anisotropy ls lf) 0%R = (200 * (result nphi fast 3 t p - result nphi slow 3 t p) / (result nphi fast 3 t p + result nphi slow 3 t p))%R).
    { intros t p T Pp. rewrite X, V0, V1 by assumption. reflexivity. }
    split; [exact (maps_ext _ _ _ _ E Ma)|exact (marks_ext _ _ _ _ E Ka)].
  - assert (E : forall t p, t < ntheta -> p < nphi -> nth (t * nphi + p) (map2 Rdiv lp lf) 0%R = (result nphi prim 3 t p / result nphi fast 3 t p)%R).
    { intros t p T Pp. rewrite X, V2, V1 by assumption. reflexivity. }
    split; [exact (maps_ext _ _ _ _ E Mb)|exact (marks_ext _ _ _ _ E Kb)].
  - assert (E : forall t p, t < ntheta -> p < nphi -> nth (t * nphi + p) (map2 Rdiv lp ls) 0%R = (result nphi prim 3 t p / result nphi slow 3 t p)%R).
    { intros t p T Pp. rewrite X, V2, V0 by assumption. reflexivity. }
    split; [exact (maps_ext _ _ _ _ E Mc)|exact (marks_ext _ _ _ _ E Kc)].
Qed.
Lemma polarization_ok pr : exists panels, make_2D_plot_polarization P pr = ([Save (base +++ "_Vp_2D_" +++ projection_name pr +++ "_polarization.png") (Flat panels)], None) /\
  List.length panels = 3 /\ forall i pn, nth_error panels i = Some pn -> maps ntheta nphi pr (result nphi (wave_rows i) 3) pn /\
  forall pos arr, In (pos, arr) (arrows pn) <-> exists t p, t < ntheta /\ p < nphi /\ t mod 20 = 0 /\ p mod 20 = 0 /\
    pos = seen pr (on_sphere (theta_at ntheta t) (phi_at nphi p)) /\ arr = (result nphi (wave_rows i) 10 t p, result nphi (wave_rows i) 11 t p).
Proof.
  assert (B : exists panels, all_ok (polarization_panel P pr vp_quantity) wave_titles = Ok panels /\
    List.length panels = 3 /\ forall i pn, nth_error panels i = Some pn -> exists wave name, nth_error wave_names i = Some (wave, name) /\ 
      polarization_panel P pr vp_quantity (wave, name) = Ok pn).
  { set (q := vp_quantity). assert (G : forall i wave name, nth_error wave_names i = Some (wave, name) -> exists pn, polarization_panel P pr q (wave, name) = Ok pn).
    { intros i wave name H. unfold polarization_panel. rewrite (column_ok i wave name (q_column q) H ltac:(cbn; lia)). cbn [QhaRunModel.bind].
      rewrite (column_ok i wave name 9 H ltac:(lia)). cbn [QhaRunModel.bind]. rewrite (column_ok i wave name 10 H ltac:(lia)). cbn [QhaRunModel.bind]. eauto. }
    destruct (G 0 _ _ eq_refl) as (p0 & E0). destruct (G 1 _ _ eq_refl) as (p1 & E1). destruct (G 2 _ _ eq_refl) as (p2 & E2).
    exists [p0; p1; p2]. unfold wave_titles. cbn [all_ok]. rewrite E0, E1, E2. cbn [QhaRunModel.bind]. split; [reflexivity|]. split; [reflexivity|].
    intros [|[|[|i]]] pn H; cbn in H; try (destruct i; discriminate H); injection H as <-; cbn [nth_error wave_names]; eauto. }
  destruct B as (panels & E & L & V). exists panels. split; [|split; [exact L|]].
  - unfold make_2D_plot_polarization. change (firstn 1 quantities) with [vp_quantity].
    cbn [each]. rewrite E. reflexivity.
  - intros i pn H. assert (I : i < 3) by (rewrite <- L; apply nth_error_Some; rewrite H; discriminate).
    destruct (V i pn H) as (wave & name & N & Q). unfold polarization_panel in Q.
    rewrite (column_ok i wave name (q_column vp_quantity) N ltac:(cbn; lia)) in Q. cbn [QhaRunModel.bind] in Q.
    rewrite (column_ok i wave name 9 N ltac:(lia)) in Q. cbn [QhaRunModel.bind] in Q. rewrite (column_ok i wave name 10 N ltac:(lia)) in Q. cbn [QhaRunModel.bind] in Q.
    injection Q as <-. split.
    + intros t p T Pp. split; [now apply place|]. cbn [pz]. rewrite column_at by (try assumption; cbn; lia). reflexivity.
    + intros pos arr. cbn [arrows]. unfold quiver. cbn [p_ntheta p_nphi the_plotter]. rewrite in_flat_map. split.
      * intros (t & T & A). apply in_map_iff in A. destruct A as (p & A & Pp). unfold every20 in T, Pp. rewrite filter_In, in_seq in T, Pp.
        destruct T as [T1 T2], Pp as [P1 P2]. apply Nat.eqb_eq in T2, P2. injection A as <- <-. exists t, p.
        rewrite !column_at by (try assumption; lia). repeat split; try lia. apply place; lia.
      * intros (t & p & T & Pp & T20 & P20 & -> & ->). exists t. unfold every20. rewrite filter_In, in_seq, Nat.eqb_eq. split; [lia|].
        apply in_map_iff. exists p. rewrite filter_In, in_seq, Nat.eqb_eq. split; [|lia]. rewrite !column_at by (try assumption; lia). f_equal. now apply place.
Qed.
Lemma run_ok pr plotly two three :
  run P pr true plotly two three =
    (flat_map (fun q => (if plotly then if three then Say ("- making 3D plots of " +++ q_name q) :: fst (make_3D_plot P q) else [] else []) ++
                        (if two then Say ("- making 2D plots of " +++ q_name q) :: fst (make_2D_plot P pr q) else [])) quantities ++
     [Say "- making 2D plots of different ratios:"; Say "   * S-wave anisotropy = 200*(v_s1-v_s2)/(v_s1+v_s2)"; Say "   * v_P/v_s1"; Say "   * v_P/v_s2"] ++
     fst (make_2D_plot_ratios P pr) ++ [Say "- making 2D plots of polarization"] ++ fst (make_2D_plot_polarization P pr), None).
Proof.
  destruct (ratios_ok pr) as (a & b & c & ER & _). destruct (polarization_ok pr) as (pn & EP & _).
  unfold run. cbn [needs]. rewrite ER, EP. cbn [fst].
  assert (S3 : forall q, In q quantities -> snd (make_3D_plot P q) = None) by (intros q Q; destruct (make_3D_ok q Q) as (f & -> & _); reflexivity).
  assert (S2 : forall q, In q quantities -> snd (make_2D_plot P pr q) = None) by (intros q Q; destruct (make_2D_ok pr q Q) as (s & f & -> & _); reflexivity).
  assert (G : forall q, In q quantities ->
    (if plotly then if three then say ("- making 3D plots of " +++ q_name q) >> make_3D_plot P q else done else done) >>
    (if true then if two then say ("- making 2D plots of " +++ q_name q) >> make_2D_plot P pr q else done else done) =
    ((if plotly then if three then Say ("- making 3D plots of " +++ q_name q) :: fst (make_3D_plot P q) else [] else []) ++
                        (if two then Say ("- making 2D plots of " +++ q_name q) :: fst (make_2D_plot P pr q) else []), None)).
  { intros q Q. specialize (S3 q Q). specialize (S2 q Q). destruct (make_3D_plot P q) as [l3 e3]. destruct (make_2D_plot P pr q) as [l2 e2]. cbn [snd] in S3, S2. subst e3 e2.
    destruct plotly, two, three; reflexivity. }
  assert (EQ : forall (f g : quantity -> script) l, (forall q, In q l -> f q = g q) -> each f l = each g l).
  { intros f g l. induction l as [|q l IH]; intros X; [reflexivity|]. cbn [each]. rewrite (X q (or_introl eq_refl)), IH; [reflexivity|]. intros; apply X; now right. }
  rewrite (EQ _ _ _ G). rewrite each_done by reflexivity. cbn [fst snd andthen say app]. rewrite ?app_nil_r. reflexivity.
Qed.
(** ** What is saved *)
Definition saved_files (l : list event) : list string := flat_map (fun e => match e with Save f _ => [f] | Say _ => [] end) l.
Definition file_names (b : string) (pr : projection) (two three : bool) : list string :=
  flat_map (fun d => (if three then map (fun w => b +++ "_" +++ fst d +++ "_3D_" +++ fst w +++ ".png") wave_names else []) ++
                     (if two then [b +++ "_" +++ fst d +++ "_2D_" +++ projection_name pr +++ ".png"] else [])) drawn ++
  [b +++ "_ratios_2D.png"; b +++ "_Vp_2D_" +++ projection_name pr +++ "_polarization.png"].
Lemma saved_app a b : saved_files (a ++ b) = saved_files a ++ saved_files b. Proof. apply flat_map_app. Qed.
Lemma saved_say l : Forall (fun e => exists m, e = Say m) l -> saved_files l = [].
Proof. induction 1 as [|e l [m ->] _ IH]; [reflexivity|exact IH]. Qed.
Lemma saved_2D pr q : In q quantities -> saved_files (fst (make_2D_plot P pr q)) = [base +++ "_" +++ q_suffix q +++ "_2D_" +++ projection_name pr +++ ".png"].
Proof.
  intros Q. destruct (make_2D_ok pr q Q) as (said & panels & -> & E). destruct (panels_ok pr q Q) as (said' & panels' & E' & _ & _ & F).
  rewrite E in E'. injection E' as -> ->. cbn [fst]. rewrite saved_app, (saved_say _ F). reflexivity.
Qed.
Lemma saved_3D q : In q quantities -> saved_files (fst (make_3D_plot P q)) = map (fun w => base +++ "_" +++ q_suffix q +++ "_3D_" +++ fst w +++ ".png") wave_names.
Proof.
  intros Q. unfold make_3D_plot, wave_titles. cbn [each].
  destruct (shown_ok q 0 _ _ Q eq_refl) as (l0 & E0 & _). destruct (shown_ok q 1 _ _ Q eq_refl) as (l1 & E1 & _). destruct (shown_ok q 2 _ _ Q eq_refl) as (l2 & E2 & _).
  unfold figure_3D. rewrite E0, E1, E2. reflexivity.
Qed.
Lemma append_inj (a b c : string) : (a +++ b = a +++ c -> b = c)%string.
Proof. induction a as [|x a IH]; cbn [String.append]; [auto|]. intros H. injection H as H. auto. Qed.
Theorem C84_files pr plotly two three :
  let '(events, failure) := run P pr true plotly two three in
  failure = None /\ saved_files events = file_names base pr two (plotly && three) /\ NoDup (saved_files events).
Proof.
  rewrite run_ok. split; [reflexivity|].
  assert (E : saved_files (flat_map (fun q => (if plotly then if three then Say ("- making 3D plots of " +++ q_name q) :: fst (make_3D_plot P q) else [] else []) ++
                        (if two then Say ("- making 2D plots of " +++ q_name q) :: fst (make_2D_plot P pr q) else [])) quantities) =
    flat_map (fun q => (if plotly && three then map (fun w => base +++ "_" +++ q_suffix q +++ "_3D_" +++ fst w +++ ".png") wave_names else []) ++
                       (if two then [base +++ "_" +++ q_suffix q +++ "_2D_" +++ projection_name pr +++ ".png"] else [])) quantities).
  { assert (G : forall l, incl l quantities -> saved_files (flat_map (fun q => (if plotly then if three then Say ("- making 3D plots of " +++ q_name q) :: fst (make_3D_plot P q) else [] else []) ++
                        (if two then Say ("- making 2D plots of " +++ q_name q) :: fst (make_2D_plot P pr q) else [])) l) =
      flat_map (fun q => (if plotly && three then map (fun w => base +++ "_" +++ q_suffix q +++ "_3D_" +++ fst w +++ ".png") wave_names else []) ++
                       (if two then [base +++ "_" +++ q_suffix q +++ "_2D_" +++ projection_name pr +++ ".png"] else [])) l); [|apply G, incl_refl].
    induction l as [|q l IH]; intros I; [reflexivity|]. cbn [flat_map]. rewrite saved_app, IH by (intros x X; apply I; now right). f_equal.
    assert (Q : In q quantities) by (apply I; now left). rewrite saved_app. f_equal.
    - destruct plotly, three; try reflexivity. rewrite <- saved_3D by exact Q. reflexivity.
    - destruct two; [|reflexivity]. rewrite <- saved_2D by exact Q. reflexivity. }
  destruct (ratios_ok pr) as (a & b & c & ER & _). destruct (polarization_ok pr) as (pn & EP & _).
  assert (F : saved_files (flat_map (fun q => (if plotly then if three then Say ("- making 3D plots of " +++ q_name q) :: fst (make_3D_plot P q) else [] else []) ++
                        (if two then Say ("- making 2D plots of " +++ q_name q) :: fst (make_2D_plot P pr q) else [])) quantities ++
     [Say "- making 2D plots of different ratios:"; Say "   * S-wave anisotropy = 200*(v_s1-v_s2)/(v_s1+v_s2)"; Say "   * v_P/v_s1"; Say "   * v_P/v_s2"] ++
     fst (make_2D_plot_ratios P pr) ++ [Say "- making 2D plots of polarization"] ++ fst (make_2D_plot_polarization P pr)) = file_names base pr two (plotly && three)).
  { rewrite saved_app, E, ER, EP. reflexivity. }
  split; [exact F|]. rewrite F.
  assert (H : file_names base pr two (plotly && three) = map (String.append base) (file_names "" pr two (plotly && three))).
  { destruct pr, two, (plotly && three); reflexivity. }
  rewrite H. apply FinFun.Injective_map_NoDup; [intros x y; apply append_inj|].
  assert (D : forall l : list string, (if List.length (nodup string_dec l) =? List.length l then true else false) = true -> NoDup l).
  { intros l X. destruct (Nat.eqb_spec (List.length (nodup string_dec l)) (List.length l)) as [Y|Y]; [|discriminate X].
    apply (NoDup_incl_NoDup (NoDup_nodup string_dec l)); [lia|intros x; apply nodup_In]. }
  apply D. destruct pr, two, (plotly && three); vm_compute; reflexivity.
Qed.

(** A name is saved once, so the drawing of a name is one. *)
Lemma one_drawing l f d d' : NoDup (saved_files l) -> In (Save f d) l -> In (Save f d') l -> d = d'.
Proof.
  induction l as [|e l IH]; intros N A B; [destruct A|]. destruct A as [->|A], B as [E|B].
  - injection E as <-. reflexivity.
  - cbn in N. inversion N as [|? ? X _]. destruct X. unfold saved_files. apply in_flat_map. exists (Save f d'). split; [exact B|now left].
  - subst e. cbn in N. inversion N as [|? ? X _]. destruct X. unfold saved_files. apply in_flat_map. exists (Save f d). split; [exact A|now left].
  - apply IH; try assumption. destruct e; [exact N|]. cbn in N. now inversion N.
Qed.
(** In each of the six maps of a run (slow secondary, fast secondary and primary
    waves) every node is at the place of its direction with the value described by
    the file; square and circle mark the greatest and the least; the anisotropy
    printed for the velocities is 200 (max - min) / (max + min). *)
Theorem C84_map pr plotly three suffix k line text : In (suffix, (k, line, text)) drawn ->
  let events := fst (run P pr true plotly true three) in
  let name := base +++ "_" +++ suffix +++ "_2D_" +++ projection_name pr +++ ".png" in
  contains line (seismic_info "GPa") = true /\
  exists panels, (forall d, In (Save name d) events <-> d = Flat panels) /\ List.length panels = 3 /\
  forall i pn, nth_error panels i = Some pn ->
    title pn = nth i ["Slow Secondary"; "Fast Secondary"; "Primary"] "" /\ label pn = text /\
    maps ntheta nphi pr (fun t p => on_scale k (result nphi (nth i [slow; fast; prim] []) k t p)) pn /\
    marks ntheta nphi pr (fun t p => on_scale k (result nphi (nth i [slow; fast; prim] []) k t p)) pn /\
    (k = 3 \/ k = 8 -> exists M m,
      (exists t p, t < ntheta /\ p < nphi /\ square pn = Some (seen pr (on_sphere (theta_at ntheta t) (phi_at nphi p))) /\ M = result nphi (nth i [slow; fast; prim] []) k t p) /\
      (exists t p, t < ntheta /\ p < nphi /\ circle pn = Some (seen pr (on_sphere (theta_at ntheta t) (phi_at nphi p))) /\ m = result nphi (nth i [slow; fast; prim] []) k t p) /\
      (forall t p, t < ntheta -> p < nphi -> (m <= result nphi (nth i [slow; fast; prim] []) k t p <= M)%R) /\
      In (Say ("   * " +++ pad_left 15 (title pn) +++ ": anisotropy = " +++ fmt_f 5 1 (200 * (M - m) / (M + m))%R +++ " %")) events).
Proof.
  intros D events name. split.
  { clear - D. cbn [drawn In] in D. decompose [or False] D; match goal with E : (_, _) = _ |- _ => injection E as <- <- <- <- end; vm_compute; reflexivity. }
  destruct (drawn_quantity suffix k line text D) as (q & Q & SU & CO & LA & KK & AN).
  assert (SK : S (q_column q) = k) by lia.
  destruct (panels_ok pr q Q) as (said & panels & E & L & V & _). destruct (make_2D_ok pr q Q) as (said' & panels' & E2 & E'). rewrite E in E'. injection E' as <- <-.
  pose proof (C84_files pr plotly true three) as FI. rewrite run_ok in FI. destruct FI as (_ & _ & ND).
  assert (IN : forall e, In e (fst (make_2D_plot P pr q)) -> In e events).
  { intros e I. unfold events. rewrite run_ok. cbn [fst]. apply in_or_app. left. apply in_flat_map. exists q. split; [exact Q|]. apply in_or_app. right. now right. }
  exists panels. split.
  { intros d. assert (A : In (Save name (Flat panels)) events).
    { apply IN. rewrite E2. cbn [fst]. apply in_or_app. right. left. unfold name. now rewrite SU. }
    split; [|intros ->; exact A]. intros B. unfold events in A, B. rewrite run_ok in A, B. cbn [fst] in A, B. exact (one_drawing _ _ _ _ ND B A). }
  split; [exact L|]. intros i pn H. destruct (V i pn H) as (wave & N & s & Es & Is).
  assert (I : i < 3) by (rewrite <- L; apply nth_error_Some; rewrite H; discriminate).
  destruct (panel_ok pr q i wave (title pn) Q N) as (pn' & s' & Ep & _ & LB & MA & MK & (hi & lo & H1 & H2 & H3 & H4 & HS & HC & BN & SS)).
  rewrite Es in Ep. injection Ep as <- <-. rewrite SK in *.
  split. { destruct i as [|[|[|i]]]; [| | |lia]; now injection N as _ <-. }
  split; [congruence|]. split; [exact MA|]. split; [exact MK|]. intros K38.
  assert (SC : forall x, on_scale k x = x) by (intros x; unfold on_scale; destruct K38 as [-> | ->]; reflexivity).
  exists (level i k (fst hi) (snd hi)), (level i k (fst lo) (snd lo)). unfold level. rewrite !SC. split; [exists (fst hi), (snd hi); auto|]. split; [exists (fst lo), (snd lo); auto|]. split.
  { intros t p T Pp. specialize (BN t p T Pp). unfold level in BN. rewrite !SC in BN. exact BN. }
  apply IN. rewrite E2. cbn [fst]. apply in_or_app. left. apply Is. rewrite SS.
  replace (q_anisotropy q) with true by (rewrite AN; destruct K38 as [-> | ->]; reflexivity). left. cbv zeta. unfold level. now rewrite !SC.
Qed.
(** Each 3D figure is the unit sphere, the half that was not sampled being the
    opposite of the other one, with the same colours (C84_opposite). *)
Theorem C84_sphere pr two suffix k line text i wave name : In (suffix, (k, line, text)) drawn -> nth_error wave_names i = Some (wave, name) ->
  let events := fst (run P pr true true two true) in
  exists text3 upper lower, (forall d, In (Save (base +++ "_" +++ suffix +++ "_3D_" +++ wave +++ ".png") d) events <-> d = Round name text3 [upper; lower]) /\
  forall t p, t < ntheta -> p < nphi ->
    (at_ (sx upper) t p, at_ (sy upper) t p, at_ (sz upper) t p) = on_sphere (theta_at ntheta t) (phi_at nphi p) /\
    (at_ (sx lower) t p, at_ (sy lower) t p, at_ (sz lower) t p) = on_sphere (PI - theta_at ntheta t) (phi_at nphi p + PI) /\
    at_ (colour upper) t p = on_scale k (result nphi (nth i [slow; fast; prim] []) k t p) /\
    at_ (colour lower) t p = on_scale k (result nphi (nth i [slow; fast; prim] []) k t p).
Proof.
  intros D N events. destruct (drawn_quantity suffix k line text D) as (q & Q & SU & CO & LA & KK & AN).
  assert (SK : S (q_column q) = k) by lia.
  destruct (shown_ok q i wave name Q N) as (l & E & L & V). rewrite SK in V.
  pose proof (C84_files pr true two true) as FI. rewrite run_ok in FI. destruct FI as (_ & _ & ND).
  destruct (make_3D_ok q Q) as (f & E3 & W). destruct (W i wave name N) as (l' & _ & IN').
  assert (IN : forall e, In e (fst (figure_3D P q (wave, name))) -> In e events).
  { intros e I. apply IN' in I. unfold events. rewrite run_ok. cbn [fst]. apply in_or_app. left. apply in_flat_map. exists q. split; [exact Q|]. apply in_or_app. left.
    rewrite E3. now right. }
  unfold figure_3D in IN. rewrite E in IN. cbn [with_ fst] in IN. specialize (IN _ (or_introl eq_refl)). rewrite SU in IN.
  eexists _, _, _. split.
  { intros d. split; [|intros ->; exact IN]. intros B. unfold events in IN, B. rewrite run_ok in IN, B. cbn [fst] in IN, B. exact (one_drawing _ _ _ _ ND B IN). }
  intros t p T Pp. cbn [sx sy sz colour]. unfold mesh. cbn [p_ntheta p_nphi the_plotter].
  rewrite !map_grid_at, !on_grid_at, rows_of_at, V by (try assumption; unfold on_grid; rewrite ?map_length, ?seq_length; try assumption).
  rewrite u_theta, v_phi. unfold on_sphere.
  assert (SI : forall x, sin (PI - x) = sin x) by (intros x; rewrite sin_minus, sin_PI, cos_PI; ring).
  assert (CI : forall x, (cos (PI - x) = - cos x)%R) by (intros x; rewrite cos_minus, sin_PI, cos_PI; ring).
  rewrite SI, CI, neg_cos, neg_sin. split; [reflexivity|]. split; [|split; reflexivity]. f_equal. f_equal; ring.
Qed.
(** The maps of the ratios. *)
Theorem C84_ratios pr plotly two three :
  exists a b c, (forall d, In (Save (base +++ "_ratios_2D.png") d) (fst (run P pr true plotly two three)) <-> d = Flat [a; b; c]) /\
  let slow_v := result nphi slow 3 in let fast_v := result nphi fast 3 in let prim_v := result nphi prim 3 in
  (label a = "S-wave anisotropy (%)" /\ maps ntheta nphi pr (fun t p => 200 * (fast_v t p - slow_v t p) / (fast_v t p + slow_v t p))%R a /\
     marks ntheta nphi pr (fun t p => 200 * (fast_v t p - slow_v t p) / (fast_v t p + slow_v t p))%R a) /\
  (label b = "$v_P / v_{s1}$" /\ maps ntheta nphi pr (fun t p => prim_v t p / fast_v t p)%R b /\ marks ntheta nphi pr (fun t p => prim_v t p / fast_v t p)%R b) /\
  (label c = "$v_P / v_{s2}$" /\ maps ntheta nphi pr (fun t p => prim_v t p / slow_v t p)%R c /\ marks ntheta nphi pr (fun t p => prim_v t p / slow_v t p)%R c).
Proof.
  destruct (ratios_ok pr) as (a & b & c & E & W). exists a, b, c. split; [|exact W].
  pose proof (C84_files pr plotly two three) as FI. rewrite run_ok in FI |- *. destruct FI as (_ & _ & ND). cbn [fst] in *.
  assert (A : In (Save (base +++ "_ratios_2D.png") (Flat [a; b; c])) (fst (make_2D_plot_ratios P pr))) by (rewrite E; now left).
  intros d. split; [intros B; eapply one_drawing; [exact ND|exact B|]|intros ->]; apply in_or_app; right; apply in_or_app; right; apply in_or_app; now left.
Qed.
(** The figure named after the polarization: a map of the phase velocities with
    arrows at every twentieth node, the x and y components of the ray (10 and 11),
    not those of the polarization (5 and 6). *)
Theorem C84_arrows pr plotly two three :
  exists panels, (forall d, In (Save (base +++ "_Vp_2D_" +++ projection_name pr +++ "_polarization.png") d) (fst (run P pr true plotly two three)) <-> d = Flat panels) /\
  List.length panels = 3 /\ forall i pn, nth_error panels i = Some pn -> maps ntheta nphi pr (result nphi (nth i [slow; fast; prim] []) 3) pn /\
  forall pos arr, In (pos, arr) (arrows pn) <-> exists t p, t < ntheta /\ p < nphi /\ t mod 20 = 0 /\ p mod 20 = 0 /\
    pos = seen pr (on_sphere (theta_at ntheta t) (phi_at nphi p)) /\
    arr = (result nphi (nth i [slow; fast; prim] []) 10 t p, result nphi (nth i [slow; fast; prim] []) 11 t p).
Proof.
  destruct (polarization_ok pr) as (panels & E & L & W). exists panels. split; [|split; [exact L|exact W]].
  pose proof (C84_files pr plotly two three) as FI. rewrite run_ok in FI |- *. destruct FI as (_ & _ & ND). cbn [fst] in *.
  assert (A : In (Save (base +++ "_Vp_2D_" +++ projection_name pr +++ "_polarization.png") (Flat panels)) (fst (make_2D_plot_polarization P pr))) by (rewrite E; now left).
  intros d. split; [intros B; eapply one_drawing; [exact ND|exact B|]|intros ->]; apply in_or_app; right; apply in_or_app; right; apply in_or_app; right; now right.
Qed.
End Figures.

(** * What a run stores *)
Section Run.
Variable eigh : mat3 -> (nat -> R) * mat3.
Variables (pinv inv : mat3 -> mat3).
Variables (C S : mat6) (rho : R).
Lemma run_rows ntheta nphi i : 2 <= ntheta -> 2 <= nphi -> exists rows, mode_rows eigh pinv inv C S rho ntheta nphi i = Ok rows /\ sampled ntheta nphi rows /\
  forall t p, t < ntheta -> p < nphi -> row eigh pinv inv C S rho (spherical_direction C rho (theta_at ntheta t) (phi_at nphi p)) i = Ok (nth (t * nphi + p) rows []).
Proof.
  intros T Q. destruct (C55_rows ntheta nphi 0 0 T Q ltac:(lia) ltac:(lia)) as (pts & SP & LP & _).
  assert (NP : forall t p, t < ntheta -> p < nphi -> nth_error pts (t * nphi + p) = Some (t * nphi + p, SeismicObjProps.angles ntheta nphi t p)).
  { intros t p Ht Hp. destruct (C55_rows ntheta nphi t p T Q Ht Hp) as (pts' & SP' & _ & N). rewrite SP in SP'. injection SP' as <-. exact N. }
  destruct (all_ok_rows eigh pinv inv C S rho pts i) as (rows & E & L & F & V). exists rows. unfold mode_rows. rewrite SP. cbn [QhaRunModel.bind]. split; [exact E|].
  assert (W : forall t p, t < ntheta -> p < nphi -> row eigh pinv inv C S rho (spherical_direction C rho (theta_at ntheta t) (phi_at nphi p)) i = Ok (nth (t * nphi + p) rows [])).
  { intros t p Ht Hp. specialize (NP t p Ht Hp). unfold SeismicObjProps.angles in NP. exact (V _ _ _ _ NP). }
  split; [|exact W]. split; [now rewrite L|]. split; [exact F|]. intros t p Ht Hp. specialize (W t p Ht Hp).
  destruct (C55_row eigh pinv inv C S rho (theta_at ntheta t) (phi_at nphi p) i) as (l & El & Vl). rewrite W in El. injection El as ->. cbv zeta in Vl.
  rewrite Vl. split; reflexivity.
Qed.

(** The opposite direction has the same velocities, polarization, power flow
    angle and enhancement factor; its ray is opposite. *)
Lemma christoffel_even (T : tensor4) d d' : (forall i, (i < 3)%nat -> d' i = - d i)%R -> christoffel T d' = christoffel T d.
Proof. intros H. extensionality i. extensionality l. unfold christoffel, sum3. rewrite !H by lia. ring. Qed.
Lemma gradient_odd (T : tensor4) d d' : (forall i, (i < 3)%nat -> d' i = - d i)%R -> gradient T d' = (fun j i l => - gradient T d j i l)%R.
Proof. intros H. extensionality j. extensionality i. extensionality l. unfold gradient, sum3. rewrite !H by lia. ring. Qed.
Lemma norm_opp v v' : (forall i, (i < 3)%nat -> v' i = - v i)%R -> norm v' = norm v.
Proof. intros H. unfold norm, sum3. rewrite !H by lia. f_equal. ring. Qed.
Theorem C84_opposite theta phi i : exists l l',
  row eigh pinv inv C S rho (spherical_direction C rho theta phi) i = Ok l /\
  row eigh pinv inv C S rho (spherical_direction C rho (PI - theta) (phi + PI)) i = Ok l' /\
  (forall k, In k [3; 4; 5; 6; 7; 8; 9; 13; 14] -> nth (k - 1) l' 0%R = nth (k - 1) l 0%R) /\
  (forall k, In k [10; 11; 12] -> nth (k - 1) l' 0%R = (- nth (k - 1)%nat l 0)%R).
Proof.
  destruct (C55_row eigh pinv inv C S rho theta phi i) as (l & E & V).
  destruct (C55_row eigh pinv inv C S rho (PI - theta) (phi + PI) i) as (l' & E' & V').
  exists l, l'. split; [exact E|]. split; [exact E'|]. cbv zeta in V, V'.
  set (d := vector theta phi) in *. set (d' := vector (PI - theta) (phi + PI)) in *.
  assert (O : forall j, j < 3 -> (d' j = - d j)%R).
  { assert (SI : sin (PI - theta) = sin theta) by (rewrite sin_minus, sin_PI, cos_PI; ring).
    assert (CO : (cos (PI - theta) = - cos theta)%R) by (rewrite cos_minus, sin_PI, cos_PI; ring).
    intros j J. unfold d, d', vector. destruct j as [|[|[|j]]]; [| | |lia]; cbn [vec3]; rewrite ?SI, ?CO, ?neg_cos, ?neg_sin; ring. }
  set (T := Cmat C rho) in *.
  assert (M : christoffel T d' = christoffel T d) by now apply christoffel_even.
  assert (GR : gradient T d' = (fun a b c => - gradient T d a b c)%R) by now apply gradient_odd.
  assert (LA : lam_at eigh C rho d' = lam_at eigh C rho d) by (unfold lam_at; fold T; now rewrite M).
  assert (EV : ev_at eigh C rho d' = ev_at eigh C rho d) by (unfold ev_at; fold T; now rewrite M).
  assert (GV : forall a j, (g_vel (group_at eigh C rho d') a j = - g_vel (group_at eigh C rho d) a j)%R).
  { intros a j. unfold group_at, group; cbn [g_vel]. fold T. rewrite LA, EV, GR. unfold sum3, Rdiv. ring. }
  assert (GA : g_abs (group_at eigh C rho d') = g_abs (group_at eigh C rho d)).
  { extensionality a. change (norm (g_vel (group_at eigh C rho d') a) = norm (g_vel (group_at eigh C rho d) a)). apply norm_opp. intros j _. apply GV. }
  assert (PW : g_power (group_at eigh C rho d') i = g_power (group_at eigh C rho d) i).
  { change (acos (around10 (sum3 (fun j => g_vel (group_at eigh C rho d') i j / g_abs (group_at eigh C rho d') i * d' j)))%R =
            acos (around10 (sum3 (fun j => g_vel (group_at eigh C rho d) i j / g_abs (group_at eigh C rho d) i * d j)))%R).
    f_equal. f_equal. unfold sum3. rewrite !GV, !O, GA by lia. unfold Rdiv. ring. }
  assert (HE : hess_at eigh pinv C rho d' = hess_at eigh pinv C rho d).
  { unfold hess_at. fold T. rewrite M, GR, LA, EV. extensionality n. extensionality a. extensionality b. unfold hessian_eigen, sum3. ring. }
  assert (EN : enhancement_at eigh pinv inv C rho d' i = enhancement_at eigh pinv inv C rho d i).
  { unfold enhancement_at, enhancement_of. f_equal. rewrite HE, LA, GA.
    assert (DG : direction_gradient (hess_at eigh pinv C rho d) (phase (lam_at eigh C rho d)) (g_abs (group_at eigh C rho d)) (g_vel (group_at eigh C rho d')) i =
                 direction_gradient (hess_at eigh pinv C rho d) (phase (lam_at eigh C rho d)) (g_abs (group_at eigh C rho d)) (g_vel (group_at eigh C rho d)) i).
    { extensionality a. extensionality b. unfold direction_gradient, sum3. rewrite !GV. f_equal. f_equal. unfold Rdiv. ring. }
    rewrite DG. apply norm_opp. intros a _. unfold sum3. rewrite !O by lia. ring. }
  rewrite LA, EV, GA, PW, EN, !GV in V'. rewrite V, V'.
  split; intros k K; cbn [In] in K; decompose [or False] K; subst k; reflexivity.
Qed.
End Run.

(** * No place with two values *)
(** Nodes drawn at the same place (the pole; phi = 0 and 2 pi) have the same
    results. *)
Lemma seen_inj pr a b c a' b' c' : (a * a + b * b + c * c = 1 -> a' * a' + b' * b' + c' * c' = 1 -> 0 <= c -> 0 <= c' ->
  seen pr (a, b, c) = seen pr (a', b', c') -> a = a' /\ b = b' /\ c = c')%R.
Proof.
  intros U U' P P' E.
  assert (G : forall s s', (0 < s -> 0 < s' -> (a / s, b / s) = (a' / s', b' / s') -> a = a' / s' * s /\ b = b' / s' * s)%R).
  { intros s s' S1 S2 X. injection X as X Y. rewrite <- X, <- Y. split; field; lra. }
  destruct pr; cbn [seen] in E.
  - destruct (G (1 + c) (1 + c') ltac:(lra) ltac:(lra) E)%R as [A B].
    assert (Q : ((1 - c) * (1 + c') = (1 - c') * (1 + c))%R).
    { assert (X : ((1 - c * c) * ((1 + c') * (1 + c')) = (1 - c' * c') * ((1 + c) * (1 + c)))%R).
      { replace (1 - c * c)%R with (a * a + b * b)%R by lra. replace (1 - c' * c')%R with (a' * a' + b' * b')%R by lra. rewrite A, B. field. lra. }
      apply Rmult_eq_reg_r with ((1 + c) * (1 + c'))%R; [nra|]. nra. }
    assert (c = c') by nra. subst c'. split; [rewrite A; field; lra|]. split; [rewrite B; field; lra|reflexivity].
  - assert (S1 : (0 < sqrt (1 + c))%R) by (apply sqrt_lt_R0; lra). assert (S2 : (0 < sqrt (1 + c'))%R) by (apply sqrt_lt_R0; lra).
    destruct (G _ _ S1 S2 E) as [A B].
    assert (Q1 : (sqrt (1 + c) * sqrt (1 + c) = 1 + c)%R) by (apply sqrt_sqrt; lra). assert (Q2 : (sqrt (1 + c') * sqrt (1 + c') = 1 + c')%R) by (apply sqrt_sqrt; lra).
    assert (X : ((1 - c * c) * (1 + c') = (1 - c' * c') * (1 + c))%R).
    { replace (1 - c * c)%R with (a * a + b * b)%R by lra. replace (1 - c' * c')%R with (a' * a' + b' * b')%R by lra. rewrite A, B.
      rewrite <- Q1 at 5. rewrite <- Q2 at 5. field. lra. }
    assert (c = c').
    { apply Rmult_eq_reg_r with ((1 + c) * (1 + c'))%R; [nra|]. nra. }
    subst c'. split; [rewrite A; field; lra|]. split; [rewrite B; field; lra|reflexivity].
Qed.
Theorem C84_well_defined eigh pinv inv C S rho ntheta nphi i rows pr t p t' p' k : 2 <= ntheta -> 2 <= nphi ->
  mode_rows eigh pinv inv C S rho ntheta nphi i = Ok rows -> t < ntheta -> p < nphi -> t' < ntheta -> p' < nphi -> 3 <= k <= 14 ->
  seen pr (on_sphere (theta_at ntheta t) (phi_at nphi p)) = seen pr (on_sphere (theta_at ntheta t') (phi_at nphi p')) ->
  result nphi rows k t p = result nphi rows k t' p'.
Proof.
  intros NT NP E T Q T' Q' K H. destruct (run_rows eigh pinv inv C S rho ntheta nphi i NT NP) as (rows' & E' & _ & W). rewrite E in E'. injection E' as <-.
  pose proof (W t p T Q) as W1. pose proof (W t' p' T' Q') as W2.
  destruct (C55_row eigh pinv inv C S rho (theta_at ntheta t) (phi_at nphi p) i) as (l & El & Vl). rewrite W1 in El. injection El as El. cbv zeta in Vl.
  destruct (C55_row eigh pinv inv C S rho (theta_at ntheta t') (phi_at nphi p') i) as (l' & El' & Vl'). rewrite W2 in El'. injection El' as El'. cbv zeta in Vl'.
  assert (V : vector (theta_at ntheta t) (phi_at nphi p) = vector (theta_at ntheta t') (phi_at nphi p')).
  { pose proof (theta_range ntheta t NT T) as R1. pose proof (theta_range ntheta t' NT T') as R2. unfold on_sphere in H. apply seen_inj in H.
    - unfold vector. destruct H as (-> & -> & ->). reflexivity.
    - pose proof (sin2_cos2 (theta_at ntheta t)) as X. pose proof (sin2_cos2 (phi_at nphi p)) as Y. unfold Rsqr in X, Y. nra.
    - pose proof (sin2_cos2 (theta_at ntheta t')) as X. pose proof (sin2_cos2 (phi_at nphi p')) as Y. unfold Rsqr in X, Y. nra.
    - pose proof PI_RGT_0. apply cos_ge_0; lra.
    - pose proof PI_RGT_0. apply cos_ge_0; lra. }
  unfold result. rewrite El, El', Vl, Vl', V. destruct k as [|[|[|k]]]; [lia|lia|lia|]. replace (Datatypes.S (Datatypes.S (Datatypes.S k)) - 1) with (Datatypes.S (Datatypes.S k)) by lia. reflexivity.
Qed.

(** * The command *)
(** A run that stored its results, or --only-plot of such a file, makes the
    figures (above) of the stored results. *)
Theorem C84_command eigh pinv inv C S rho ntheta nphi base flag only plotly two three pr filename files : 2 <= ntheta -> 2 <= nphi ->
  contains "_SEISMIC" base = false -> contains ".hdf5" base = false ->
  exists slow fast prim, mode_rows eigh pinv inv C S rho ntheta nphi 0 = Ok slow /\ mode_rows eigh pinv inv C S rho ntheta nphi 1 = Ok fast /\
    mode_rows eigh pinv inv C S rho ntheta nphi 2 = Ok prim /\
    sampled ntheta nphi slow /\ sampled ntheta nphi fast /\ sampled ntheta nphi prim /\
    let out := base +++ "_SEISMIC.hdf5" in
    (files out = Some (seismic_file "GPa" slow fast prim) -> (only = true -> filename = out) ->
     seismic_plots flag true only true true plotly two three pr filename out files =
       (true, (fst (run (the_plotter base slow fast prim ntheta nphi) pr true plotly two three), Finished))).
Proof.
  intros T Q B1 B2. destruct (run_rows eigh pinv inv C S rho ntheta nphi 0 T Q) as (slow & E0 & S0 & _).
  destruct (run_rows eigh pinv inv C S rho ntheta nphi 1 T Q) as (fast & E1 & S1 & _). destruct (run_rows eigh pinv inv C S rho ntheta nphi 2 T Q) as (prim & E2 & S2 & _).
  exists slow, fast, prim. do 6 (split; [assumption|]). intros out F O.
  pose proof (C84_loads base slow fast prim ntheta nphi T Q S0 S1 S2 B1 B2) as LD. fold out in LD.
  pose proof (C84_files base slow fast prim ntheta nphi T Q S0 S1 S2 pr plotly two three) as FI.
  destruct (run (the_plotter base slow fast prim ntheta nphi) pr true plotly two three) as [events failure] eqn:R. destruct FI as (-> & _).
  unfold seismic_plots, init. cbn [orb]. f_equal. destruct only.
  - rewrite (O eq_refl). unfold plot. rewrite F, LD. cbn [s_projection s_mpl s_plotly s_two s_three]. rewrite R. reflexivity.
  - unfold plot. rewrite F, LD. cbn [s_projection s_mpl s_plotly s_two s_three]. rewrite R. reflexivity.
Qed.
(** --only-plot of something else: an error message, and no figure. *)
Definition description (f : h5) (i : string) : string :=
  i +++ nl +++ "Available data:" +++ nl +++ fold_right (fun kd s => pad_left 15 (fst kd) +++ ": " +++ nl +++ s) "" (by_name (datasets f)).
Theorem C84_refused flag saved mpl plotly two three pr filename out files : mpl || plotly = true ->
  (files filename = None -> seismic_plots flag true true saved mpl plotly two three pr filename out files = (true, ([], ErrorShown "This is not a QUANTAS hdf5 file"))) /\
  (forall f i, files filename = Some f -> info f = Some i -> contains "Phase velocity" (description f i) = false ->
     seismic_plots flag true true saved mpl plotly two three pr filename out files = (true, ([], ErrorShown "This file does not contain the required results"))).
Proof.
  intros A. unfold seismic_plots, init. rewrite A. split.
  - intros F. unfold plot. rewrite F. reflexivity.
  - intros f i F I N. unfold plot, read_data, reader_info. rewrite F, I. unfold description in N. rewrite N. reflexivity.
Qed.
(** A file of another program in HDF5 format ends with an exception instead. *)
Theorem C84_foreign_refuted flag saved mpl plotly two three pr filename out files f : mpl || plotly = true ->
  files filename = Some f -> info f = None ->
  seismic_plots flag true true saved mpl plotly two three pr filename out files = (true, ([], Crashed "KeyError")).
Proof. intros A F I. unfold seismic_plots, init. rewrite A. unfold plot, read_data, reader_info. rewrite F, I. reflexivity. Qed.

(** * Where the figures are not what the options say *)
(** Without 2D plots (two = false) the ratios and the polarization are drawn
    nevertheless; *)
Theorem C84_no_2D_refuted base slow fast prim ntheta nphi pr plotly three : 2 <= ntheta -> 2 <= nphi ->
  sampled ntheta nphi slow -> sampled ntheta nphi fast -> sampled ntheta nphi prim ->
  let events := fst (run (the_plotter base slow fast prim ntheta nphi) pr true plotly false three) in
  In (base +++ "_ratios_2D.png") (saved_files events) /\ In (base +++ "_Vp_2D_" +++ projection_name pr +++ "_polarization.png") (saved_files events).
Proof.
  intros T Q S0 S1 S2 events. pose proof (C84_files base slow fast prim ntheta nphi T Q S0 S1 S2 pr plotly false three) as FI. unfold events.
  destruct (run (the_plotter base slow fast prim ntheta nphi) pr true plotly false three) as [ev failure]. destruct FI as (_ & FS & _). cbn [fst]. rewrite FS.
  unfold file_names. split; apply in_or_app; right; [now left|right; now left].
Qed.
(** and when only plotly is installed, they end the run with an exception. *)
Theorem C84_no_matplotlib_refuted base slow fast prim ntheta nphi pr two three : 2 <= ntheta -> 2 <= nphi ->
  sampled ntheta nphi slow -> sampled ntheta nphi fast -> sampled ntheta nphi prim ->
  snd (run (the_plotter base slow fast prim ntheta nphi) pr false true two three) = Some "NameError".
Proof.
  intros T Q S0 S1 S2. unfold run. cbn [needs].
  match goal with |- context [each ?g quantities] => assert (A : snd (each g quantities) = None) end.
  { rewrite each_done; [reflexivity|]. intros q I. destruct three; [|reflexivity].
    destruct (make_3D_ok base slow fast prim ntheta nphi T Q S0 S1 S2 q I) as (f & -> & _). reflexivity. }
  rewrite andthen_done by exact A. reflexivity.
Qed.
(** --only-plot without asking for plots ends with an exception; *)
Theorem C84_only_plot_refuted flag saved mpl plotly two three pr filename out files :
  seismic_plots flag false true saved mpl plotly two three pr filename out files = (flag, ([], Crashed "AttributeError")).
Proof. reflexivity. Qed.
(** so does a run with plots whose result file is not to be overwritten; *)
Theorem C84_not_saved_refuted flag mpl plotly two three pr filename out files : mpl || plotly = true ->
  seismic_plots flag true false false mpl plotly two three pr filename out files = (true, ([], Crashed "AttributeError")).
Proof. intros A. unfold seismic_plots, init. rewrite A. reflexivity. Qed.
(** and the second of two runs in one process, the first one with plots, the
    second without: the switch belongs to the class. *)
Theorem C84_switch_refuted mpl plotly two three pr filename out files filename' out' files' mpl' plotly' two' three' pr' saved saved' only : mpl || plotly = true ->
  let '(flag, _) := seismic_plots false true only saved mpl plotly two three pr filename out files in
  seismic_plots flag false false saved' mpl' plotly' two' three' pr' filename' out' files' = (true, ([], Crashed "AttributeError")).
Proof. intros A. unfold seismic_plots at 1, init. rewrite A. reflexivity. Qed.
(** Drawing the same results in the other projection replaces the map of the
    ratios by a different one. *)
Theorem C84_ratios_replaced_refuted base slow fast prim ntheta nphi plotly two three : 3 <= ntheta -> 2 <= nphi ->
  sampled ntheta nphi slow -> sampled ntheta nphi fast -> sampled ntheta nphi prim ->
  exists d d', In (Save (base +++ "_ratios_2D.png") d) (fst (run (the_plotter base slow fast prim ntheta nphi) Stereo true plotly two three)) /\
    In (Save (base +++ "_ratios_2D.png") d') (fst (run (the_plotter base slow fast prim ntheta nphi) Eqar true plotly two three)) /\ d <> d'.
Proof.
  intros T Q S0 S1 S2.
  destruct (C84_ratios base slow fast prim ntheta nphi ltac:(lia) Q S0 S1 S2 Stereo plotly two three) as (a & b & c & I & (_ & M & _) & _).
  destruct (C84_ratios base slow fast prim ntheta nphi ltac:(lia) Q S0 S1 S2 Eqar plotly two three) as (a' & b' & c' & I' & (_ & M' & _) & _).
  exists (Flat [a; b; c]), (Flat [a'; b'; c']). split; [now apply I|]. split; [now apply I'|]. intros E. injection E as <- _ _.
  destruct (M 1 0 ltac:(lia) ltac:(lia)) as [X _]. destruct (M' 1 0 ltac:(lia) ltac:(lia)) as [X' _]. rewrite X in X'. unfold seen, on_sphere in X'. injection X' as X' _.
  assert (P0 : phi_at nphi 0 = 0%R) by (unfold phi_at; cbn [INR]; unfold Rdiv; ring). rewrite P0, cos_0, Rmult_1_r in X'.
  pose proof (theta_pos ntheta 1 ltac:(lia) ltac:(lia)) as T0.
  assert (T1 : (theta_at ntheta 1 < PI / 2)%R).
  { unfold theta_at. apply le_INR in T. cbn [INR] in *. pose proof PI_RGT_0. apply Rmult_lt_reg_r with (INR ntheta - 1)%R; [lra|]. field_simplify; [|lra]. nra. }
  set (u := theta_at ntheta 1) in *. pose proof PI_RGT_0.
  assert (SU : (0 < sin u)%R) by (apply sin_gt_0; lra). assert (CU : (0 < cos u)%R) by (apply cos_gt_0; lra).
  assert (W : (sqrt (1 + cos u) = 1 + cos u)%R).
  { assert (S3 : (0 < sqrt (1 + cos u))%R) by (apply sqrt_lt_R0; lra).
    apply Rmult_eq_reg_l with (sin u / (sqrt (1 + cos u) * (1 + cos u)))%R; [|apply Rgt_not_eq; apply Rdiv_lt_0_compat; [lra|apply Rmult_lt_0_compat; lra]].
    transitivity (sin u / (1 + cos u))%R; [field; lra|]. rewrite X'. field. lra. }
  assert (Z : (sqrt (1 + cos u) * sqrt (1 + cos u) = 1 + cos u)%R) by (apply sqrt_sqrt; lra). rewrite W in Z. nra.
Qed.
(** The arrows called polarization are rays: for a shear wave of an isotropic
    crystal travelling horizontally the arrow has the length of the velocity and
    is at a right angle to the polarization. *)
Theorem C84_polarization_refuted eigh pinv inv K G rho C S phi i : (0 < K)%R -> (0 < G)%R -> (0 < rho)%R ->
  (forall a b, a < 6 -> b < 6 -> C a b = isotropic_C K G a b) -> i < 3 ->
  let n := vector (PI / 2) phi in
  eigenpair (christoffel (Cmat C rho) n) (lam_at eigh C rho n i) (ev_at eigh C rho n i) -> dot n (ev_at eigh C rho n i) = 0%R ->
  exists l, row eigh pinv inv C S rho (spherical_direction C rho (PI / 2) phi) i = Ok l /\
    (nth 9 l 0 * nth 4 l 0 + nth 10 l 0 * nth 5 l 0 = 0)%R /\
    (nth 9 l 0 * nth 9 l 0 + nth 10 l 0 * nth 10 l 0 = nth 2 l 0 * nth 2 l 0)%R /\ (0 < nth 2 l 0)%R.
Proof.
  intros K0 G0 R0 IC I n EP TR. destruct (C55_row eigh pinv inv C S rho (PI / 2) phi i) as (l & E & V). exists l. split; [exact E|]. cbv zeta in V. fold n in V.
  assert (U : dot n n = 1%R).
  { unfold n, vector, dot. cbn [vec3]. rewrite sin_PI2, cos_PI2. pose proof (sin2_cos2 phi) as X. unfold Rsqr in X. nra. }
  pose proof (C53_group_velocity K G rho C K0 G0 R0 IC n U (lam_at eigh C rho n) (ev_at eigh C rho n) i EP) as GV.
  pose proof (mode_pos K G rho C K0 G0 R0 IC n U (lam_at eigh C rho n) (ev_at eigh C rho n) i EP) as LP.
  destruct (phase_pos _ _ LP) as [_ PP]. set (v := phase (lam_at eigh C rho n) i) in *.
  assert (G1 : g_vel (group_at eigh C rho n) i 0 = (v * n 0%nat)%R) by (apply GV; lia).
  assert (G2 : g_vel (group_at eigh C rho n) i 1 = (v * n 1%nat)%R) by (apply GV; lia).
  rewrite V. cbn [nth]. rewrite G1, G2.
  assert (N2 : n 2%nat = 0%R) by (unfold n, vector; cbn [vec3]; apply cos_PI2).
  unfold dot in TR, U. rewrite N2 in TR, U. split; [|split].
  - transitivity (v * (n 0%nat * ev_at eigh C rho n i 0%nat + n 1%nat * ev_at eigh C rho n i 1%nat + 0 * ev_at eigh C rho n i 2%nat))%R; [ring|]. rewrite TR. ring.
  - transitivity (v * v * (n 0%nat * n 0%nat + n 1%nat * n 1%nat + 0 * 0))%R; [ring|]. rewrite U. ring.
  - exact PP.
Qed.

(** * Examples *)
(** A run of 2 x 3 nodes: the map of the phase velocity of the slow wave. *)
Example C84_instance : exists slow fast prim panels pn,
  mode_rows eigh31 (fun A => A) (fun A => A) C31 (isotropic_S 3 1) 1000 2 3 0 = Ok slow /\
  In (Save "quartz_Vp_2D_eqar.png" (Flat panels)) (fst (run (the_plotter "quartz" slow fast prim 2 3) Eqar true false true false)) /\
  nth_error panels 0 = Some pn /\ title pn = "Slow Secondary" /\
  at_ (pz pn) 1 1 = nth 2 (nth 4 slow []) 0%R /\ (at_ (px pn) 1 1 < 0)%R.
Proof.
  destruct (C84_command eigh31 (fun A => A) (fun A => A) C31 (isotropic_S 3 1) 1000 2 3 "quartz" false false false true false Eqar "" (fun _ => None) ltac:(lia) ltac:(lia) eq_refl eq_refl)
    as (slow & fast & prim & E0 & _ & _ & S0 & S1 & S2 & _).
  destruct (C84_map "quartz" slow fast prim 2 3 ltac:(lia) ltac:(lia) S0 S1 S2 Eqar false false "Vp" 3 "  - Column 3     : Phase velocity (km s^-1)" "$v_p \: (km \: s^{-1})$" ltac:(left; reflexivity))
    as (_ & panels & I & L & V).
  destruct panels as [|pn panels]; [discriminate L|]. destruct (V 0 pn eq_refl) as (T & _ & M & _).
  exists slow, fast, prim, (pn :: panels), pn. split; [exact E0|]. split; [now apply I|]. split; [reflexivity|]. split; [exact T|].
  destruct (M 1 1 ltac:(lia) ltac:(lia)) as [X Z]. split; [exact Z|]. injection X as -> _.
  replace (theta_at 2 1) with (PI / 2)%R by (unfold theta_at; cbn [INR]; field).
  replace (phi_at 3 1) with PI by (unfold phi_at; cbn [INR]; field).
  rewrite sin_PI2, cos_PI2, cos_PI, Rplus_0_r, sqrt_1. lra.
Qed.
(** The slow wave along x, polarized along y: its arrow points along x. *)
Example C84_polarization_instance : let n := vector (PI / 2) 0 in
  eigenpair (christoffel (Cmat C31 1000) n) (lam_at eigh31 C31 1000 n 0) (ev_at eigh31 C31 1000 n 0) /\ dot n (ev_at eigh31 C31 1000 n 0) = 0%R /\
  exists l, row eigh31 (fun A => A) (fun A => A) C31 (isotropic_S 3 1) 1000 (spherical_direction C31 1000 (PI / 2) 0) 0 = Ok l /\
    nth 9 l 0%R <> 0%R /\ nth 10 l 0%R = 0%R /\ nth 4 l 0%R = 0%R /\ nth 5 l 0%R = 1%R.
Proof.
  intros n. assert (N : forall j, j < 3 -> n j = ex j).
  { intros j J. unfold n, vector. destruct j as [|[|[|j]]]; [| | |lia]; cbn [vec3 ex]; rewrite ?sin_PI2, ?cos_PI2, ?sin_0, ?cos_0; ring. }
  assert (M : christoffel (Cmat C31 1000) n = christoffel (Cmat C31 1000) ex).
  { extensionality a. extensionality b. unfold christoffel, TensorModel.sum3. rewrite !N by lia. reflexivity. }
  assert (EV : forall k, ev_at eigh31 C31 1000 n 0 k = if (k =? 1)%nat then 1%R else 0%R).
  { intros k. unfold ev_at, sorted_eigen, eigh31. cbn [snd]. unfold argsort. cbn [fold_left insert_by].
    repeat (match goal with |- context [Rlt_dec ?a ?b] => destruct (Rlt_dec a b); try (exfalso; lra) end; cbn [insert_by fold_left nth]);
    destruct k as [|[|[|k]]]; reflexivity. }
  assert (EP : eigenpair (christoffel (Cmat C31 1000) n) (lam_at eigh31 C31 1000 n 0) (ev_at eigh31 C31 1000 n 0)).
  { unfold lam_at, ev_at. rewrite M. apply (C53_modes_are_eigenpairs eigh31 _ 0 solves31). lia. }
  assert (D : dot n (ev_at eigh31 C31 1000 n 0) = 0%R) by (unfold dot; rewrite !N, !EV by lia; cbn [ex Nat.eqb]; ring).
  split; [exact EP|]. split; [exact D|].
  destruct (C84_polarization_refuted eigh31 (fun A => A) (fun A => A) 3 1 1000 C31 (isotropic_S 3 1) 0 0 ltac:(lra) ltac:(lra) ltac:(lra) ltac:(reflexivity) ltac:(lia) EP D)
    as (l & E & A & B & P0). exists l. split; [exact E|].
  destruct (C55_row eigh31 (fun A => A) (fun A => A) C31 (isotropic_S 3 1) 1000 (PI / 2) 0 0) as (l' & E' & V). rewrite E in E'. injection E' as <-. cbv zeta in V. fold n in V.
  assert (P4 : nth 4 l 0%R = 0%R) by (rewrite V; cbn [nth]; now rewrite EV). assert (P5 : nth 5 l 0%R = 1%R) by (rewrite V; cbn [nth]; now rewrite EV).
  rewrite P4, P5 in A. assert (Z : nth 10 l 0%R = 0%R) by lra. rewrite Z in B.
  split; [|auto]. intros X. rewrite X in B. nra.
Qed.
(** Two projections of the equator and of the node theta = 60 degrees, both at phi = 0. *)
Example C84_maps_instance : plane Stereo (PI / 2) 0 = (1, 0)%R /\ fst (plane Eqar (PI / 3) 0) = (sqrt 2 / 2)%R.
Proof.
  split.
  - unfold plane. replace (1 / 2 * (PI / 2))%R with (PI / 4)%R by field. rewrite tan_PI4, cos_0, sin_0. f_equal; ring.
  - unfold plane. cbn [fst]. replace (1 / 2 * (PI / 3))%R with (PI / 6)%R by field. rewrite sin_PI6, cos_0. field.
Qed.
Example C84_names_instance : file_names "quartz" Stereo true true =
  ["quartz_Vp_3D_ssecondary.png"; "quartz_Vp_3D_fsecondary.png"; "quartz_Vp_3D_primary.png"; "quartz_Vp_2D_stereo.png";
   "quartz_Vp_rel_3D_ssecondary.png"; "quartz_Vp_rel_3D_fsecondary.png"; "quartz_Vp_rel_3D_primary.png"; "quartz_Vp_rel_2D_stereo.png";
   "quartz_Vg_3D_ssecondary.png"; "quartz_Vg_3D_fsecondary.png"; "quartz_Vg_3D_primary.png"; "quartz_Vg_2D_stereo.png";
   "quartz_Vg_rel_3D_ssecondary.png"; "quartz_Vg_rel_3D_fsecondary.png"; "quartz_Vg_rel_3D_primary.png"; "quartz_Vg_rel_2D_stereo.png";
   "quartz_pf_angle_3D_ssecondary.png"; "quartz_pf_angle_3D_fsecondary.png"; "quartz_pf_angle_3D_primary.png"; "quartz_pf_angle_2D_stereo.png";
   "quartz_enhancement_factor_3D_ssecondary.png"; "quartz_enhancement_factor_3D_fsecondary.png"; "quartz_enhancement_factor_3D_primary.png"; "quartz_enhancement_factor_2D_stereo.png";
   "quartz_ratios_2D.png"; "quartz_Vp_2D_stereo_polarization.png"].
Proof. reflexivity. Qed.

Print Assumptions C84_loads.
Print Assumptions C84_files.
Print Assumptions C84_map.
Print Assumptions C84_sphere.
Print Assumptions C84_ratios.
Print Assumptions C84_arrows.
Print Assumptions C84_opposite.
Print Assumptions C84_well_defined.
Print Assumptions C84_command.
Print Assumptions C84_refused.
Print Assumptions C84_foreign_refuted.
Print Assumptions C84_no_2D_refuted.
Print Assumptions C84_no_matplotlib_refuted.
Print Assumptions C84_only_plot_refuted.
Print Assumptions C84_not_saved_refuted.
Print Assumptions C84_switch_refuted.
Print Assumptions C84_ratios_replaced_refuted.
Print Assumptions C84_polarization_refuted.
