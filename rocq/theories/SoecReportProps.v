(** C87: what the report of an elastic run says. *)
From Coq Require Import Reals String Ascii List Bool Arith Lia Lra.
From Verif Require Import Py DecimalModel DecimalProofs FormatModel FormatProofs TableModel SymmetryModel TensorModel TensorProps AverageProps SoecRunModel SoecRunProps ReportModel ReportSpec ReportProofs SoecReportModel.
Import ListNotations.
Open Scope string_scope.
Open Scope list_scope.
Open Scope nat_scope.

Ltac line := unfold qv, qh, dv, dh, hv, hh, tv, th, sh;
  try apply says_indent;
  repeat first [ reflexivity | match goal with
    | |- says (centred _ _ _) _ => apply says_centred; lia
    | |- says (right _ _ _) _ => apply says_right; lia
    | |- says (center _ _) _ => apply says_center; literal
    | |- says (pad_right _ _) _ => apply says_pad_right; literal
    | |- says (_ +++ " | " +++ _) _ => eapply says_bar'
    | |- says (_ +++ "  " +++ _) _ => eapply says_gap'
    | |- says (_ +++ " " +++ _) _ => eapply says_space'
    end ].

(** ** What the report should say *)
(** The moduli of Voigt (from the stiffnesses) and of Reuss (from the compliances). *)
Section Spec.
Local Open Scope R_scope.
Definition nine (M : mat6) : R := sum_3 (fun i => sum_3 (M i)).
Definition trace3 (M : mat6) : R := M 0%nat 0%nat + M 1%nat 1%nat + M 2%nat 2%nat.
Definition off3 (M : mat6) : R := M 0%nat 1%nat + M 0%nat 2%nat + M 1%nat 2%nat.
Definition shears (M : mat6) : R := M 3%nat 3%nat + M 4%nat 4%nat + M 5%nat 5%nat.
Definition bulk_voigt (C : mat6) : R := nine C / 9.
Definition shear_voigt (C : mat6) : R := (trace3 C - off3 C + 3 * shears C) / 15.
Definition bulk_reuss (S : mat6) : R := 1 / nine S.
Definition shear_reuss (S : mat6) : R := 15 / (4 * trace3 S - 4 * off3 S + 3 * shears S).
Definition mean (x y : R) : R := (x + y) / 2.
(** Relative elongation along [u] per unit of hydrostatic tension, in TPa^-1: u.e.u
    for the strain e = S (1,1,1,0,0,0) in Voigt's notation. *)
Definition elongation (S : mat6) (u : vec) : R :=
  let e := apply6 S (fun p => match p with 0%nat | 1%nat | 2%nat => 1 | _ => 0 end) in
  1000 * (e 0%nat * (u 0%nat * u 0%nat) + e 1%nat * (u 1%nat * u 1%nat) + e 2%nat * (u 2%nat * u 2%nat) +
          e 3%nat * (u 1%nat * u 2%nat) + e 4%nat * (u 0%nat * u 2%nat) + e 5%nat * (u 0%nat * u 1%nat)).
(** Shear modulus in the plane of two perpendicular directions, Poisson's ratio for
    a pull along the first one. *)
Definition shear_of (S : mat6) (u w : vec) : R := 1 / (4 * loop_abab (S_ijkl S) u w).
Definition poisson_of (S : mat6) (u w : vec) : R := - loop_aabb (S_ijkl S) u w / loop_aaaa (S_ijkl S) u.
Definition unit (u : vec) : Prop := dot u u = 1.
(** [lo] and [hi] are the least and the largest value of [f], found along [a] and [b]. *)
Definition extremes (f : vec -> R) (lo hi : R) (a b : vec) : Prop :=
  unit a /\ unit b /\ f a = lo /\ f b = hi /\ forall u, unit u -> lo <= f u <= hi.
Definition pair (u w : vec) : Prop := unit u /\ unit w /\ dot u w = 0.
(** The same over pairs of perpendicular directions; [a] and [b] are the second ones
    of the pairs where the values are found. *)
Definition pair_extremes (f : vec -> vec -> R) (lo hi : R) (a b : vec) : Prop :=
  (exists u, pair u a /\ f u a = lo) /\ (exists u, pair u b /\ f u b = hi) /\ forall u w, pair u w -> lo <= f u w <= hi.
Definition ratio_is (lo hi : R) (r : shown) : Prop :=
  match r with Fin x => 0 < lo /\ 1 <= x /\ x * lo = hi | Inf => lo <= 0 | Nan => False end.
End Spec.
(** One line of the report: the name at its start, and its numbers. *)
Definition row (label : list string) (xs : list R) (l : string) : Prop := says l (map Word label ++ map (Decimals 4) xs).
(** Three lines with the components of the vectors, one vector per column. *)
Definition axis_rows (label : list string) (vs : list vec) (ls : list string) : Prop :=
  exists x y z, ls = [x; y; z] /\ row [] (map (fun v : vec => v 0) vs) x /\ row label (map (fun v : vec => v 1) vs) y /\ row [] (map (fun v : vec => v 2) vs) z.
Definition values_rows (names : list string) (xs : list R) (ratios : list shown) (ls : list string) : Prop :=
  exists n v r1 a r2, ls = [n; v; r1; a; r2] /\ says n (map Word names) /\ row ["Values"] xs v /\ says a (Word "Anisotropy" :: map (told 4) ratios).
Definition matrix_rows (k : nat) (M : mat6) (ls : list string) : Prop :=
  Forall2 (fun i l => says l (map (fun j => Decimals k (M i j)) (seq 0 6))) (seq 0 6) ls.

(** ** Proofs *)
Lemma six_says field k m : (forall x, says (field x) [Decimals k x]) -> says (six field m) (map (fun j => Decimals k (m j)) (seq 0 6)).
Proof. intros H. unfold six. apply says_indent2. apply (says_fields (fun j => field (m j)) (fun j => Decimals k (m j))). intros j. apply H. Qed.

Theorem C87_input job system density text C S :
  exists stiff compl, let r := report_input job system density text C S in
  contains r ["System is " +++ system] /\
  (density <> 0%R -> contains r ["Density: " +++ text +++ " kg m^-3"]) /\
  (density = 0%R -> contains r ["Density: not provided"]) /\
  contains r ("Stiffness matrix (values in GPa)" :: stiff) /\ matrix_rows 4 C stiff /\
  contains r ("Compliance tensor (values in TPa^-1)" :: compl) /\ matrix_rows 6 (fun i j => (1000 * S i j)%R) compl.
Proof.
  exists (map (fun i => six (fun x => right 10 4 (Fin x)) (C i)) (seq 0 6)),
    (map (fun i => six (fun x => right_plain 9 6 (Fin x)) (fun j => (S i j * 1000)%R)) (seq 0 6)).
  cbv zeta. unfold report_input.
  set (A := map _ _). set (B := map _ _).
  set (d := if Req_EM_T density 0 then _ else _).
  split; [|split; [|split; [|split; [|split; [|split]]]]].
  - eexists [_; _; _], _. reflexivity.
  - intros N. unfold d. destruct (Req_EM_T density 0) as [E|_]; [contradiction|]. eexists [_; _; _; _], _. reflexivity.
  - intros N. unfold d. destruct (Req_EM_T density 0) as [_|E]; [|contradiction]. eexists [_; _; _; _], _. reflexivity.
  - eexists [_; _; _; _; _; _], _. reflexivity.
  - apply rows_say. intros i. apply six_says. intros x. apply (says_right 10 4 (Fin x)). lia.
  - eexists ([_; _; _; _; _; _; _] ++ A ++ [_]), _. rewrite <- !app_assoc. reflexivity.
  - apply rows_say. intros i. pose proof (six_says (fun x => right_plain 9 6 (Fin x)) 6 (fun j => (S i j * 1000)%R)) as H.
    rewrite (map_ext (fun j => Decimals 6 (1000 * S i j)) (fun j => Decimals 6 (S i j * 1000))) by (intros j; f_equal; ring).
    apply H. intros x. apply (says_right_plain 9 6 (Fin x)). lia.
Qed.

Lemma voigt_reuss C S : KV C = bulk_voigt C /\ GV C = shear_voigt C /\ KR S = bulk_reuss S /\ GR S = shear_reuss S.
Proof.
  split; [|split; [reflexivity|split; [|reflexivity]]].
  - unfold KV, bulk_voigt, nine, einsum_iijj, sum3, sum_3, C_ijkl, vm. cbn [nth]. reflexivity.
  - unfold KR, bulk_reuss, nine, einsum_iijj, sum3, sum_3. f_equal. open_S. field.
Qed.
Lemma sv_says l K E G n : says (pad_right 5 l) [Word l] -> says (sv l [K; E; G; n]) [Word l; Decimals 5 K; Decimals 5 E; Decimals 5 G; Decimals 5 n].
Proof.
  intros H. unfold sv. apply (says_columns (fun x => centred 10 5 (Fin x)) (Decimals 5) [K; E; G; n] (pad_right 5 l) [Word l] H).
  intros x. apply (says_centred 10 5 (Fin x)). lia.
Qed.

Section Run.
Variable brute : (angles -> R) -> nat -> angles * R.
Variable velocities : angles -> list R.
Variables (polar_lines : list string) (time_line : string).
Notation report := (report_run brute velocities polar_lines time_line).
Notation global := (global_search brute).
Definition row5 (label : string) (K G : R) (l : string) : Prop :=
  says l [Word label; Decimals 5 K; Decimals 5 (young_textbook K G); Decimals 5 G; Decimals 5 (poisson_textbook K G)].

Lemma initial_averages density C S eigv : symmetric6 C -> positive_definite C -> inverse6 C S ->
  let KV := bulk_voigt C in let KR := bulk_reuss S in let GV := shear_voigt C in let GR := shear_reuss S in
  exists names v r h,
  contains (report_initial C S density eigv) ("Average properties" :: names ++ [v; r; h]) /\
  Forall2 (fun l ws => says l (map Word ws)) names
    [["Bulk"; "Young's"; "Shear"; "Poisson's"]; ["modulus"; "modulus"; "modulus"; "ratio"]; ["(GPa)"; "(GPa)"; "(GPa)"]] /\
  row5 "Voigt" KV GV v /\ row5 "Reuss" KR GR r /\ row5 "Hill" (mean KV KR) (mean GV GR) h.
Proof.
  intros H P I KV0 KR0 GV0 GR0.
  destruct (voigt_reuss C S) as (E1 & E2 & E3 & E4). fold KV0 in E1. fold KR0 in E3. fold GV0 in E2. fold GR0 in E4.
  pose proof (C29_bulk_order C S H P I) as (K0 & K1 & K2). pose proof (C29_shear_order C S H P I) as (G0 & G1 & G2).
  exists [sh "" "Bulk" "Young's" "Shear" "Poisson's"; sh "" "modulus" "modulus" "modulus" "ratio"; sh "" "(GPa)" "(GPa)" "(GPa)" ""].
  exists (sv "Voigt" (average_row (KV C) (GV C))), (sv "Reuss" (average_row (KR S) (GR S))), (sv "Hill" (average_row (KH C S) (GH C S))).
  split; [|split; [|split; [|split]]].
  - unfold report_initial, averages. eexists [], _. reflexivity.
  - repeat constructor; literal.
  - rewrite (proj1 (C29_rows (KV C) (GV C) ltac:(lra) ltac:(lra))). unfold row5. rewrite <- E1, <- E2. apply sv_says. literal.
  - rewrite (proj1 (C29_rows (KR S) (GR S) ltac:(lra) ltac:(lra))). unfold row5. rewrite <- E3, <- E4. apply sv_says. literal.
  - rewrite (proj1 (C29_rows (KH C S) (GH C S) ltac:(lra) ltac:(lra))). unfold row5, mean.
    replace ((KV0 + KR0) / 2)%R with (KH C S) by (unfold KH; rewrite E1, E3; field).
    replace ((GV0 + GR0) / 2)%R with (GH C S) by (unfold GH; rewrite E2, E4; field). apply sv_says. literal.
Qed.
Theorem C87_averages s density C S eigv : symmetric6 C -> positive_definite C -> inverse6 C S ->
  let KV := bulk_voigt C in let KR := bulk_reuss S in let GV := shear_voigt C in let GR := shear_reuss S in
  exists names v r h,
  contains (report s density C S eigv) ("Average properties" :: names ++ [v; r; h]) /\
  Forall2 (fun l ws => says l (map Word ws)) names
    [["Bulk"; "Young's"; "Shear"; "Poisson's"]; ["modulus"; "modulus"; "modulus"; "ratio"]; ["(GPa)"; "(GPa)"; "(GPa)"]] /\
  row5 "Voigt" KV GV v /\ row5 "Reuss" KR GR r /\ row5 "Hill" (mean KV KR) (mean GV GR) h.
Proof.
  intros H P I KV0 KR0 GV0 GR0. destruct (initial_averages density C S eigv H P I) as (x0 & x1 & x2 & x3 & B & X).
  exists x0, x1, x2, x3. split; [unfold report_run; apply contains_left; exact B|exact X].
Qed.

Lemma velocity_line a v : says a (map Word (words a)) -> says (a +++ " " +++ right 10 5 v +++ " km/s") (map Word (words a) ++ [told 5 v; Word "km/s"]).
Proof.
  intros H. apply says_join; [exact H|].
  apply (says_join (right 10 5 v) "km/s" [told 5 v] [Word "km/s"]); [apply says_right; lia|literal].
Qed.
Lemma initial_velocities density C S eigv : symmetric6 C -> positive_definite C -> inverse6 C S -> (0 < density)%R ->
  exists ls lp vs vp,
  contains (report_initial C S density eigv) ["Average (VRH) wave velocities"; ls; lp] /\
  says ls [Word "-"; Word "Transversal"; Word "(Vs):"; Decimals 5 vs; Word "km/s"] /\
  says lp [Word "-"; Word "Longitudinal"; Word "(Vp):"; Decimals 5 vp; Word "km/s"] /\
  (0 < vs < vp)%R /\
  (density * vs ^ 2 = 1000 * mean (shear_voigt C) (shear_reuss S))%R /\
  (density * (vp ^ 2 - 4 / 3 * vs ^ 2) = 1000 * mean (bulk_voigt C) (bulk_reuss S))%R.
Proof.
  intros H P I D. destruct (C29_sound C S density H P I D) as (vs & vp & V & O & Q1 & Q2).
  pose proof (C29_bulk_order C S H P I) as (K0 & K1 & K2). pose proof (C29_shear_order C S H P I) as (G0 & G1 & G2).
  destruct (voigt_reuss C S) as (E1 & E2 & E3 & E4).
  assert (A : average_velocities C S density = (Fin vs, Fin vp)).
  { unfold average_velocities. destruct (Rlt_dec 0 density) as [_|N]; [|lra].
    assert (X : (0 <= 1000 * GH C S / density)%R) by (apply Rlt_le, Rdiv_lt_0_compat; lra).
    assert (Y : (0 <= 1000 * (KH C S + 4 * GH C S / 3) / density)%R) by (apply Rlt_le, Rdiv_lt_0_compat; lra).
    unfold square_root. destruct (Rle_dec 0 (1000 * GH C S / density)) as [_|N]; [|lra].
    destruct (Rle_dec 0 (1000 * (KH C S + 4 * GH C S / 3) / density)) as [_|N]; [|lra].
    unfold isotropic_velocities in V. cbn [averages nth average_row] in V. injection V as V1 V2 V3. now rewrite <- V1, <- V3. }
  exists ("  - Transversal  (Vs): " +++ right 10 5 (Fin vs) +++ " km/s"), ("  - Longitudinal (Vp): " +++ right 10 5 (Fin vp) +++ " km/s"), vs, vp.
  split; [|split; [|split; [|split; [exact O|split]]]].
  - unfold report_initial. rewrite A. cbn [fst snd].
    set (l1 := _ +++ right 10 5 (Fin vs) +++ _). set (l2 := _ +++ right 10 5 (Fin vp) +++ _). eexists ([_; _; _; _] ++ [_; _; _] ++ [_]), _. reflexivity.
  - exact (velocity_line "  - Transversal  (Vs):" (Fin vs) (says_literal _)).
  - exact (velocity_line "  - Longitudinal (Vp):" (Fin vp) (says_literal _)).
  - rewrite Q1. unfold at2, averages, mean. cbn [nth average_row]. now rewrite E2, E4.
  - rewrite Q2. unfold at2, averages, mean. cbn [nth average_row]. now rewrite E1, E3.
Qed.
Theorem C87_velocities s density C S eigv : symmetric6 C -> positive_definite C -> inverse6 C S -> (0 < density)%R ->
  exists ls lp vs vp,
  contains (report s density C S eigv) ["Average (VRH) wave velocities"; ls; lp] /\
  says ls [Word "-"; Word "Transversal"; Word "(Vs):"; Decimals 5 vs; Word "km/s"] /\
  says lp [Word "-"; Word "Longitudinal"; Word "(Vp):"; Decimals 5 vp; Word "km/s"] /\
  (0 < vs < vp)%R /\
  (density * vs ^ 2 = 1000 * mean (shear_voigt C) (shear_reuss S))%R /\
  (density * (vp ^ 2 - 4 / 3 * vs ^ 2) = 1000 * mean (bulk_voigt C) (bulk_reuss S))%R.
Proof.
  intros H P I D. destruct (initial_velocities density C S eigv H P I D) as (x0 & x1 & x2 & x3 & B & X).
  exists x0, x1, x2, x3. split; [unfold report_run; apply contains_left; exact B|exact X].
Qed.
(** Without a density the two lines are still there. *)
Lemma initial_no_density density C S eigv : (density <= 0)%R ->
  exists ls lp,
  contains (report_initial C S density eigv) ["Average (VRH) wave velocities"; ls; lp] /\
  says ls (map Word ["-"; "Transversal"; "(Vs):"; "nan"; "km/s"]) /\ says lp (map Word ["-"; "Longitudinal"; "(Vp):"; "nan"; "km/s"]).
Proof.
  intros D.
  assert (A : average_velocities C S density = (Nan, Nan)) by (unfold average_velocities; destruct (Rlt_dec 0 density); [lra|reflexivity]).
  exists ("  - Transversal  (Vs): " +++ right 10 5 Nan +++ " km/s"), ("  - Longitudinal (Vp): " +++ right 10 5 Nan +++ " km/s").
  split; [|split; literal].
  unfold report_initial. rewrite A. cbn [fst snd].
  set (l1 := _ +++ right 10 5 Nan +++ _). set (l2 := _ +++ right 10 5 Nan +++ _). eexists ([_; _; _; _] ++ [_; _; _] ++ [_]), _. reflexivity.
Qed.
Theorem C87_no_density_refuted s density C S eigv : (density <= 0)%R ->
  exists ls lp,
  contains (report s density C S eigv) ["Average (VRH) wave velocities"; ls; lp] /\
  says ls (map Word ["-"; "Transversal"; "(Vs):"; "nan"; "km/s"]) /\ says lp (map Word ["-"; "Longitudinal"; "(Vp):"; "nan"; "km/s"]).
Proof.
  intros D. destruct (initial_no_density density C S eigv D) as (x0 & x1 & B & X).
  exists x0, x1. split; [unfold report_run; apply contains_left; exact B|exact X].
Qed.
Lemma eigenvalue_line a x : says a (map Word (words a)) -> says (a +++ " " +++ centred 7 5 (Fin x)) (map Word (words a) ++ [Decimals 5 x]).
Proof. intros H. apply says_join; [exact H|]. apply (says_centred 7 5 (Fin x)). lia. Qed.
Lemma initial_eigenvalues density C S eigv :
  exists ls, contains (report_initial C S density eigv) ("Eigenvalues of the stiffness matrix:" :: ls) /\
  Forall2 (fun i l => says l [Word (nth i ["lambda_1:"; "lambda_2:"; "lambda_3:"; "lambda_4:"; "lambda_5:"; "lambda_6:"] ""); Decimals 5 (nth i eigv 0%R)]) (seq 0 6) ls.
Proof.
  exists (map (fun i => "    lambda_" +++ print_nat (N.of_nat (i + 1)) +++ ": " +++ centred 7 5 (Fin (nth i eigv 0%R))) (seq 0 6)). split.
  - unfold report_initial. set (E := map _ (seq 0 6)). set (A := map _ (combine _ _)).
    set (l1 := _ +++ right 10 5 (fst _) +++ _). set (l2 := _ +++ right 10 5 (snd _) +++ _).
    exists ([ "Average properties"; sh "" "Bulk" "Young's" "Shear" "Poisson's"; sh "" "modulus" "modulus" "modulus" "ratio"; sh "" "(GPa)" "(GPa)" "(GPa)" ""] ++ A ++
      [""; "Average (VRH) wave velocities"; l1; l2; ""]), [""].
    rewrite <- !app_assoc. reflexivity.
  - cbn [seq map nth]. apply Forall2_cons; [|apply Forall2_cons; [|apply Forall2_cons; [|apply Forall2_cons; [|apply Forall2_cons; [|apply Forall2_cons; [|apply Forall2_nil]]]]]].
    + exact (eigenvalue_line "    lambda_1:" (nth 0 eigv 0%R) (says_literal _)).
    + exact (eigenvalue_line "    lambda_2:" (nth 1 eigv 0%R) (says_literal _)).
    + exact (eigenvalue_line "    lambda_3:" (nth 2 eigv 0%R) (says_literal _)).
    + exact (eigenvalue_line "    lambda_4:" (nth 3 eigv 0%R) (says_literal _)).
    + exact (eigenvalue_line "    lambda_5:" (nth 4 eigv 0%R) (says_literal _)).
    + exact (eigenvalue_line "    lambda_6:" (nth 5 eigv 0%R) (says_literal _)).
Qed.
Theorem C87_eigenvalues s density C S eigv :
  exists ls, contains (report s density C S eigv) ("Eigenvalues of the stiffness matrix:" :: ls) /\
  Forall2 (fun i l => says l [Word (nth i ["lambda_1:"; "lambda_2:"; "lambda_3:"; "lambda_4:"; "lambda_5:"; "lambda_6:"] ""); Decimals 5 (nth i eigv 0%R)]) (seq 0 6) ls.
Proof.
  intros *. destruct (initial_eigenvalues density C S eigv) as (x0 & B & X).
  exists x0. split; [unfold report_run; apply contains_left; exact B|exact X].
Qed.

(** *** The directional tables *)
Lemma goes_on eigv : (exists x, In x eigv /\ x <> 0%R) -> gate eigv = false.
Proof.
  intros (x & I & N). destruct (gate eigv) eqn:G; [|reflexivity]. apply C33_gate_iff_all_zero in G.
  rewrite Forall_forall in G. now specialize (G x I).
Qed.
Lemma ratio_ok f dim : global f dim -> global (fun x => (- f x)%R) dim ->
  ratio_is (v_min (vary brute f dim)) (v_max (vary brute f dim)) (shown_ratio (v_anisotropy (vary brute f dim))).
Proof.
  intros H H'. pose proof (C34_anisotropy brute f dim (global_sound _ _ _ H) (global_sound _ _ _ H')) as A. unfold vary.
  destruct (v_anisotropy _); exact A.
Qed.
Lemma elongation_is S u : elongation S u = (1000 * loop_aakk (S_ijkl S) u)%R.
Proof. unfold elongation, apply6, loop_aakk, sum3. f_equal. open_S. field. Qed.
Lemma young_extremes S : global (young_f S) 2 -> global (fun x => (- young_f S x)%R) 2 ->
  let v := vary brute (young_f S) 2 in extremes (E_of S) (v_min v) (v_max v) (min_axis1 v) (max_axis1 v).
Proof.
  intros H H' v. destruct (proj1 (C34_axes_single brute S) (global_sound _ _ _ H) (global_sound _ _ _ H')) as (A & B & D & E).
  repeat split; try assumption; now apply (C34_global_single brute S H H').
Qed.
Lemma found_axis f : global f 2 -> unit (vector_of (fst (brute f 2))).
Proof. intros (_ & L & _). destruct (two_angles _ L) as (t & p & E). rewrite E. apply (C30_unit t p 0%R). Qed.
Lemma compressibility_extremes S : global (compressibility_f S) 2 -> global (fun x => (- compressibility_f S x)%R) 2 ->
  let v := vary brute (compressibility_f S) 2 in extremes (elongation S) (v_min v) (v_max v) (min_axis1 v) (max_axis1 v).
Proof.
  intros H H' v. destruct (proj2 (C34_axes_single brute S) (global_sound _ _ _ H) (global_sound _ _ _ H')) as (A & B).
  split; [exact (found_axis _ H)|]. split; [exact (found_axis _ H')|]. rewrite !elongation_is. split; [exact A|]. split; [exact B|].
  intros u Hu. rewrite elongation_is. destruct (C30_half_ranges_suffice u Hu) as (t & p & Bt & Bp & U).
  assert (X : in_box 2 [t; p]) by (split; [reflexivity|]; repeat apply Forall_cons; try apply Forall_nil; assumption).
  destruct H as (_ & _ & G). destruct H' as (_ & _ & G'). specialize (G _ X). specialize (G' _ X).
  unfold v, vary, directional_variation, maximize, minimize. cbn [v_min v_max fst snd].
  assert (E : (1000 * loop_aakk (S_ijkl S) u)%R = compressibility_f S [t; p]).
  { unfold compressibility_f, linear_compressibility. cbn [ang nth]. f_equal.
    destruct U as [(U1 & U2 & U3)|(U1 & U2 & U3)]; unfold loop_aakk, sum3; rewrite U1, U2, U3; ring. }
  rewrite E. lra.
Qed.
Lemma pairs_found f (g : vec -> vec -> R) : (forall t p c, f [t; p; c] = g (vector t p) (vector_chi t p c)) ->
  (forall u u' w w', up_to_sign u u' -> up_to_sign w w' -> g u w = g u' w') ->
  global f 3 -> global (fun x => (- f x)%R) 3 ->
  let v := vary brute f 3 in pair_extremes g (v_min v) (v_max v) (min_axis1 v) (max_axis1 v).
Proof.
  intros F Sg (A & L & G) (A' & L' & G') v. unfold v, vary, directional_variation, maximize, minimize. cbn [v_min v_max min_axis1 max_axis1 fst snd].
  destruct (three_angles _ L) as (t & p & c & E). destruct (three_angles _ L') as (t' & p' & c' & E').
  split; [|split].
  - exists (vector t p). rewrite A, E. cbn [vector_of]. split; [|now rewrite F].
    destruct (C30_unit t p c) as (U1 & U2 & U3). repeat split; assumption.
  - exists (vector t' p'). rewrite A', E'. cbn [vector_of]. split; [|rewrite F; ring].
    destruct (C30_unit t' p' c') as (U1 & U2 & U3). repeat split; assumption.
  - intros u w (Hu & Hw & Huw).
    destruct (C30_half_ranges_reach_pairs u w Hu Hw Huw) as (a & b & d & Ba & Bb & Bd & U & W).
    assert (B : in_box 3 [a; b; d]) by (split; [reflexivity|]; repeat apply Forall_cons; try apply Forall_nil; assumption).
    specialize (G _ B). specialize (G' _ B). rewrite F in G, G'. rewrite (Sg _ _ _ _ U W). lra.
Qed.
Lemma shear_signs S u u' w w' : up_to_sign u u' -> up_to_sign w w' -> shear_of S u w = shear_of S u' w'.
Proof.
  intros U W. unfold shear_of. f_equal. f_equal.
  destruct U as [(U1 & U2 & U3)|(U1 & U2 & U3)]; destruct W as [(W1 & W2 & W3)|(W1 & W2 & W3)]; unfold loop_abab, sum3; rewrite U1, U2, U3, W1, W2, W3; ring.
Qed.
Lemma poisson_signs S u u' w w' : up_to_sign u u' -> up_to_sign w w' -> poisson_of S u w = poisson_of S u' w'.
Proof.
  intros U W. unfold poisson_of.
  assert (E1 : loop_aabb (S_ijkl S) u w = loop_aabb (S_ijkl S) u' w').
  { destruct U as [(U1 & U2 & U3)|(U1 & U2 & U3)]; destruct W as [(W1 & W2 & W3)|(W1 & W2 & W3)]; unfold loop_aabb, sum3; rewrite U1, U2, U3, W1, W2, W3; ring. }
  assert (E2 : loop_aaaa (S_ijkl S) u = loop_aaaa (S_ijkl S) u').
  { destruct U as [(U1 & U2 & U3)|(U1 & U2 & U3)]; unfold loop_aaaa, sum3; rewrite U1, U2, U3; ring. }
  now rewrite E1, E2.
Qed.

Lemma single_moduli S : 
  global (young_f S) 2 -> global (fun x => (- young_f S x)%R) 2 ->
  global (compressibility_f S) 2 -> global (fun x => (- compressibility_f S x)%R) 2 ->
  exists l0 head l1 values axes l2 E0 E1 b0 b1 rE rb u0 u1 w0 w1,
  contains (report_single (vary brute (young_f S) 2) (vary brute (compressibility_f S) 2))
    (["Variations of the elastic moduli:"; ""; l0; head; l1] ++ values ++ axes ++ [l2; "Notes: E min/max values in GPa, beta min/max values in TPa^-1"]) /\
  says head (map Word ["Young's"; "modulus"; "Linear"; "compressibility"]) /\
  values_rows ["E_min"; "E_max"; "beta_min"; "beta_max"] [E0; E1; b0; b1] [rE; rb] values /\
  axis_rows ["Axis"] [u0; u1; w0; w1] axes /\
  extremes (E_of S) E0 E1 u0 u1 /\ ratio_is E0 E1 rE /\
  extremes (elongation S) b0 b1 w0 w1 /\ ratio_is b0 b1 rb.
Proof.
  intros HE HE' HL HL'. pose proof (young_extremes S HE HE') as XE. pose proof (compressibility_extremes S HL HL') as XL.
  pose proof (ratio_ok _ _ HE HE') as RE. pose proof (ratio_ok _ _ HL HL') as RL. cbv zeta in XE, XL.
  set (E := vary brute (young_f S) 2) in *. set (L := vary brute (compressibility_f S) 2) in *.
  exists tl, (dh "" "Young's modulus" "Linear compressibility"), ml,
    [qh "" "E_min" "E_max" "beta_min" "beta_max"; qv "Values" (Fin (v_min E)) (Fin (v_max E)) (Fin (v_min L)) (Fin (v_max L)); ml; dv "Anisotropy" (shown_ratio (v_anisotropy E)) (shown_ratio (v_anisotropy L)); ml],
    (map (fun i => qv (nth i [""; "Axis"; ""] "") (first_axis min_axis1 E i) (first_axis max_axis1 E i) (first_axis min_axis1 L i) (first_axis max_axis1 L i)) (seq 0 3)), tl.
  do 4 eexists. exists (shown_ratio (v_anisotropy E)), (shown_ratio (v_anisotropy L)). do 4 eexists.
  split; [|split; [|split; [|split; [|split; [exact XE|split; [exact RE|split; [exact XL|exact RL]]]]]]].
  - unfold report_single. set (M := map _ _). eexists [], [""]. rewrite <- !app_assoc. reflexivity.
  - literal.
  - do 5 eexists. split; [reflexivity|]. split; [literal|]. split; [unfold row; line|line].
  - do 3 eexists. split; [reflexivity|]. unfold first_axis. cbn [nth]. split; [unfold row; line|]. split; [unfold row; line|unfold row; line].
Qed.
Theorem C87_moduli s density C S eigv : (exists x, In x eigv /\ x <> 0%R) ->
  global (young_f S) 2 -> global (fun x => (- young_f S x)%R) 2 ->
  global (compressibility_f S) 2 -> global (fun x => (- compressibility_f S x)%R) 2 ->
  exists l0 head l1 values axes l2 E0 E1 b0 b1 rE rb u0 u1 w0 w1,
  contains (report s density C S eigv)
    (["Variations of the elastic moduli:"; ""; l0; head; l1] ++ values ++ axes ++ [l2; "Notes: E min/max values in GPa, beta min/max values in TPa^-1"]) /\
  says head (map Word ["Young's"; "modulus"; "Linear"; "compressibility"]) /\
  values_rows ["E_min"; "E_max"; "beta_min"; "beta_max"] [E0; E1; b0; b1] [rE; rb] values /\
  axis_rows ["Axis"] [u0; u1; w0; w1] axes /\
  extremes (E_of S) E0 E1 u0 u1 /\ ratio_is E0 E1 rE /\
  extremes (elongation S) b0 b1 w0 w1 /\ ratio_is b0 b1 rb.
Proof.
  intros N HE HE' HL HL'. destruct (single_moduli S HE HE' HL HL') as (x0 & x1 & x2 & x3 & x4 & x5 & x6 & x7 & x8 & x9 & x10 & x11 & x12 & x13 & x14 & x15 & B & X).
  exists x0, x1, x2, x3, x4, x5, x6, x7, x8, x9, x10, x11, x12, x13, x14, x15. split; [unfold report_run; rewrite (goes_on eigv N); apply contains_skip; apply contains_left; exact B|exact X].
Qed.

(** The two lines of directions of the second table show one and the same vector. *)
Lemma dual_shear S : 
  global (shear_f S) 3 -> global (fun x => (- shear_f S x)%R) 3 ->
  global (poisson_f S) 3 -> global (fun x => (- poisson_f S x)%R) 3 ->
  exists l0 head l1 values first l2 second l3 G0 G1 n0 n1 rG rn u0 u1 w0 w1,
  contains (report_dual (vary brute (shear_f S) 3) (vary brute (poisson_f S) 3))
    ([l0; head; l1] ++ values ++ first ++ [l2] ++ second ++ [l3; "Notes: G min/max values in GPa"]) /\
  says head (map Word ["Shear"; "modulus"; "Poisson's"; "ratio"]) /\
  values_rows ["G_min"; "G_max"; "nu_min"; "nu_max"] [G0; G1; n0; n1] [rG; rn] values /\
  axis_rows ["1st"; "Axis"] [u0; u1; w0; w1] first /\
  axis_rows ["2nd"; "Axis"] [u0; u1; w0; w1] second /\
  pair_extremes (shear_of S) G0 G1 u0 u1 /\ ratio_is G0 G1 rG /\
  pair_extremes (poisson_of S) n0 n1 w0 w1 /\ ratio_is n0 n1 rn.
Proof.
  intros HE HE' HL HL'.
  pose proof (pairs_found (shear_f S) (shear_of S) (fun t p c => eq_refl) (shear_signs S) HE HE') as XE.
  pose proof (pairs_found (poisson_f S) (poisson_of S) (fun t p c => eq_refl) (poisson_signs S) HL HL') as XL.
  pose proof (ratio_ok _ _ HE HE') as RE. pose proof (ratio_ok _ _ HL HL') as RL. cbv zeta in XE, XL.
  destruct (C34_axes_dual_refuted brute _ (global_sound _ _ _ HE)) as (A1 & A2 & _).
  destruct (C34_axes_dual_refuted brute _ (global_sound _ _ _ HL)) as (B1 & B2 & _).
  fold (vary brute) in A1, A2, B1, B2.
  set (E := vary brute (shear_f S) 3) in *. set (L := vary brute (poisson_f S) 3) in *.
  exists tl, (dh "" "Shear modulus" "Poisson's ratio"), ml,
    [qh "" "G_min" "G_max" "nu_min" "nu_max"; qv "Values" (Fin (v_min E)) (Fin (v_max E)) (Fin (v_min L)) (Fin (v_max L)); ml; dv "Anisotropy" (shown_ratio (v_anisotropy E)) (shown_ratio (v_anisotropy L)); ml],
    (map (fun i => qv (nth i [""; "1st Axis"; ""] "") (first_axis min_axis1 E i) (first_axis max_axis1 E i) (first_axis min_axis1 L i) (first_axis max_axis1 L i)) (seq 0 3)), ml,
    (map (fun i => qv (nth i [""; "2nd Axis"; ""] "") (second_axis min_axis2 E i) (second_axis max_axis2 E i) (second_axis min_axis2 L i) (second_axis max_axis2 L i)) (seq 0 3)), tl.
  do 4 eexists. exists (shown_ratio (v_anisotropy E)), (shown_ratio (v_anisotropy L)). exists (min_axis1 E), (max_axis1 E), (min_axis1 L), (max_axis1 L).
  split; [|split; [|split; [|split; [|split; [|split; [exact XE|split; [exact RE|split; [exact XL|exact RL]]]]]]]].
  - unfold report_dual. set (M := map _ _). set (M2 := map _ _). eexists [], [""]. rewrite <- !app_assoc. reflexivity.
  - literal.
  - do 5 eexists. split; [reflexivity|]. split; [literal|]. split; [unfold row; line|line].
  - do 3 eexists. split; [reflexivity|]. unfold first_axis. cbn [nth]. split; [unfold row; line|]. split; [unfold row; line|unfold row; line].
  - do 3 eexists. split; [reflexivity|]. unfold second_axis. rewrite A1, A2, B1, B2. cbn [nth]. split; [unfold row; line|]. split; [unfold row; line|unfold row; line].
Qed.
Theorem C87_shear s density C S eigv : (exists x, In x eigv /\ x <> 0%R) ->
  global (shear_f S) 3 -> global (fun x => (- shear_f S x)%R) 3 ->
  global (poisson_f S) 3 -> global (fun x => (- poisson_f S x)%R) 3 ->
  exists l0 head l1 values first l2 second l3 G0 G1 n0 n1 rG rn u0 u1 w0 w1,
  contains (report s density C S eigv)
    ([l0; head; l1] ++ values ++ first ++ [l2] ++ second ++ [l3; "Notes: G min/max values in GPa"]) /\
  says head (map Word ["Shear"; "modulus"; "Poisson's"; "ratio"]) /\
  values_rows ["G_min"; "G_max"; "nu_min"; "nu_max"] [G0; G1; n0; n1] [rG; rn] values /\
  axis_rows ["1st"; "Axis"] [u0; u1; w0; w1] first /\
  axis_rows ["2nd"; "Axis"] [u0; u1; w0; w1] second /\
  pair_extremes (shear_of S) G0 G1 u0 u1 /\ ratio_is G0 G1 rG /\
  pair_extremes (poisson_of S) n0 n1 w0 w1 /\ ratio_is n0 n1 rn.
Proof.
  intros N HE HE' HL HL'. destruct (dual_shear S HE HE' HL HL') as (x0 & x1 & x2 & x3 & x4 & x5 & x6 & x7 & x8 & x9 & x10 & x11 & x12 & x13 & x14 & x15 & x16 & x17 & B & X).
  exists x0, x1, x2, x3, x4, x5, x6, x7, x8, x9, x10, x11, x12, x13, x14, x15, x16, x17. split; [unfold report_run; rewrite (goes_on eigv N); do 2 apply contains_skip; apply contains_left; exact B|exact X].
Qed.
(** The table itself shows whatever four pairs of directions it is given, the
    second ones under "2nd Axis" (here they happen to equal the first). *)
Theorem C87_dual_table G Nu a b c d :
  min_axis2 G = Some a -> max_axis2 G = Some b -> min_axis2 Nu = Some c -> max_axis2 Nu = Some d ->
  exists first l second,
  contains (report_dual G Nu) (first ++ [l] ++ second) /\
  axis_rows ["1st"; "Axis"] [min_axis1 G; max_axis1 G; min_axis1 Nu; max_axis1 Nu] first /\
  axis_rows ["2nd"; "Axis"] [a; b; c; d] second.
Proof.
  intros A1 A2 B1 B2.
  exists (map (fun i => qv (nth i [""; "1st Axis"; ""] "") (first_axis min_axis1 G i) (first_axis max_axis1 G i) (first_axis min_axis1 Nu i) (first_axis max_axis1 Nu i)) (seq 0 3)), ml,
    (map (fun i => qv (nth i [""; "2nd Axis"; ""] "") (second_axis min_axis2 G i) (second_axis max_axis2 G i) (second_axis min_axis2 Nu i) (second_axis max_axis2 Nu i)) (seq 0 3)).
  split; [|split].
  - unfold report_dual. set (M := map _ _). set (M2 := map _ _). eexists [_; _; _; _; _; _; _; _], [_; _; _]. rewrite <- !app_assoc. reflexivity.
  - do 3 eexists. split; [reflexivity|]. unfold first_axis. cbn [nth]. split; [unfold row; line|]. split; [unfold row; line|unfold row; line].
  - do 3 eexists. split; [reflexivity|]. unfold second_axis. rewrite A1, A2, B1, B2. cbn [nth]. split; [unfold row; line|]. split; [unfold row; line|unfold row; line].
Qed.
Example C87_dual_instance : exists G, min_axis2 G = Some (fun i => INR i) /\ max_axis2 G = Some (fun _ => 1%R) /\ min_axis1 G 0%nat = 1%R.
Proof. exists {| v_min := 1; v_max := 2; v_anisotropy := Finite 2; min_axis1 := fun _ => 1%R; max_axis1 := fun _ => 0%R; min_axis2 := Some (fun i => INR i); max_axis2 := Some (fun _ => 1%R) |}. repeat split; reflexivity. Qed.
(** So a reader who takes the printed directions for the pair which gives the least
    shear modulus is misled: they are not perpendicular. *)
Theorem C87_second_axis_refuted s density C S eigv : (exists x, In x eigv /\ x <> 0%R) ->
  global (shear_f S) 3 -> global (fun x => (- shear_f S x)%R) 3 ->
  global (poisson_f S) 3 -> global (fun x => (- poisson_f S x)%R) 3 ->
  exists first l second u1 u2 rest rest',
  contains (report s density C S eigv) (first ++ [l] ++ second) /\
  axis_rows ["1st"; "Axis"] (u1 :: rest) first /\ axis_rows ["2nd"; "Axis"] (u2 :: rest') second /\ ~ pair u1 u2 /\ ~ pair u2 u1.
Proof.
  intros N HE HE' HL HL'.
  destruct (C87_shear s density C S eigv N HE HE' HL HL') as (l0 & head & l1 & values & first & l2 & second & l3 & G0 & G1 & n0 & n1 & rG & rn & u0 & u1 & w0 & w1 & B & _ & _ & F & X & Q & _).
  exists first, l2, second, u0, u0, [u1; w0; w1], [u1; w0; w1]. split; [|split; [exact F|split; [exact X|]]].
  - destruct B as (p & q & ->). exists (p ++ [l0; head; l1] ++ values), ([l3; "Notes: G min/max values in GPa"] ++ q). now rewrite <- !app_assoc.
  - split; intros (U & _ & D); unfold unit in U; lra.
Qed.
(** The velocities are known only as a function of the two angles. *)
Definition wave_extremes (k : nat) (lo hi : R) (a b : vec) : Prop :=
  (exists t p, a = vector t p /\ nth k (velocities [t; p]) 0%R = lo) /\
  (exists t p, b = vector t p /\ nth k (velocities [t; p]) 0%R = hi) /\
  forall t p, (0 <= t <= PI)%R -> (0 <= p <= PI)%R -> (lo <= nth k (velocities [t; p]) 0 <= hi)%R.
Lemma waves_found (f : angles -> R) k : f = (fun x => nth k (velocities x) 0%R) -> global f 2 -> global (fun x => (- f x)%R) 2 ->
  let v := vary brute f 2 in wave_extremes k (v_min v) (v_max v) (min_axis1 v) (max_axis1 v).
Proof.
  intros F (A & L & G) (A' & L' & G') v. unfold v, vary, directional_variation, maximize, minimize. cbn [v_min v_max min_axis1 max_axis1 fst snd].
  destruct (two_angles _ L) as (t & p & E). destruct (two_angles _ L') as (t' & p' & E').
  split; [|split].
  - exists t, p. rewrite A, E. split; [reflexivity|]. now rewrite F.
  - exists t', p'. rewrite A', E'. split; [reflexivity|]. rewrite F. ring.
  - intros a b Ba Bb. assert (B : in_box 2 [a; b]) by (split; [reflexivity|]; repeat apply Forall_cons; try apply Forall_nil; assumption).
    specialize (G _ B). specialize (G' _ B). assert (Q : f [a; b] = nth k (velocities [a; b]) 0%R) by now rewrite F. rewrite Q in *. lra.
Qed.
Lemma seismic_waves  : 
  (forall k, k < 3 -> global (fun x => nth k (velocities x) 0%R) 2 /\ global (fun x => (- nth k (velocities x) 0)%R) 2) ->
  exists l0 head l1 values axes l2 a0 a1 b0 b1 c0 c1 ra rb rc ua ua' ub ub' uc uc',
  contains (report_seismic (vary brute (longitudinal_wave velocities) 2) (vary brute (shear_wave_1 velocities) 2) (vary brute (shear_wave_2 velocities) 2))
    (["Variations of the seismic velocities:"; ""; l0; head; l1] ++ values ++ axes ++ [l2; "Notes: min/max values in km s^-1"]) /\
  says head (map Word ["V_s1"; "V_s2"; "V_p"]) /\
  values_rows ["min"; "max"; "min"; "max"; "min"; "max"] [a0; a1; b0; b1; c0; c1] [ra; rb; rc] values /\
  axis_rows ["Axis"] [ua; ua'; ub; ub'; uc; uc'] axes /\
  wave_extremes 0 a0 a1 ua ua' /\ ratio_is a0 a1 ra /\
  wave_extremes 1 b0 b1 ub ub' /\ ratio_is b0 b1 rb /\
  wave_extremes 2 c0 c1 uc uc' /\ ratio_is c0 c1 rc.
Proof.
  intros H. destruct (H 0 ltac:(lia)) as (H0 & H0'). destruct (H 1 ltac:(lia)) as (H1 & H1'). destruct (H 2 ltac:(lia)) as (H2 & H2').
  pose proof (waves_found (shear_wave_1 velocities) 0 eq_refl H0 H0') as X0. pose proof (ratio_ok _ _ H0 H0') as R0.
  pose proof (waves_found (shear_wave_2 velocities) 1 eq_refl H1 H1') as X1. pose proof (ratio_ok _ _ H1 H1') as R1.
  pose proof (waves_found (longitudinal_wave velocities) 2 eq_refl H2 H2') as X2. pose proof (ratio_ok _ _ H2 H2') as R2.
  cbv zeta in X0, X1, X2. fold (shear_wave_1 velocities) in R0. fold (shear_wave_2 velocities) in R1. fold (longitudinal_wave velocities) in R2.
  set (V0 := vary brute (shear_wave_1 velocities) 2) in *. set (V1 := vary brute (shear_wave_2 velocities) 2) in *.
  set (V2 := vary brute (longitudinal_wave velocities) 2) in *.
  exists ttl, (th "" "V_s1" "V_s2" "V_p"), tml,
    [hh "" "min" "max" "min" "max" "min" "max"; hv "Values" (Fin (v_min V0)) (Fin (v_max V0)) (Fin (v_min V1)) (Fin (v_max V1)) (Fin (v_min V2)) (Fin (v_max V2)); tml;
     tv "Anisotropy" (shown_ratio (v_anisotropy V0)) (shown_ratio (v_anisotropy V1)) (shown_ratio (v_anisotropy V2)); tml],
    (map (fun i => hv (nth i [""; "Axis"; ""] "") (first_axis min_axis1 V0 i) (first_axis max_axis1 V0 i) (first_axis min_axis1 V1 i) (first_axis max_axis1 V1 i)
      (first_axis min_axis1 V2 i) (first_axis max_axis1 V2 i)) (seq 0 3)), ttl.
  do 6 eexists. exists (shown_ratio (v_anisotropy V0)), (shown_ratio (v_anisotropy V1)), (shown_ratio (v_anisotropy V2)). do 6 eexists.
  split; [|split; [|split; [|split; [|split; [exact X0|split; [exact R0|split; [exact X1|split; [exact R1|split; [exact X2|exact R2]]]]]]]]].
  - unfold report_seismic. set (M := map _ _). eexists [""], [""]. rewrite <- !app_assoc. reflexivity.
  - literal.
  - do 5 eexists. split; [reflexivity|]. split; [literal|]. split; [unfold row; line|line].
  - do 3 eexists. split; [reflexivity|]. unfold first_axis. cbn [nth]. split; [unfold row; line|]. split; [unfold row; line|unfold row; line].
Qed.
Theorem C87_waves s density C S eigv : (exists x, In x eigv /\ x <> 0%R) -> (0 < density)%R ->
  (forall k, k < 3 -> global (fun x => nth k (velocities x) 0%R) 2 /\ global (fun x => (- nth k (velocities x) 0)%R) 2) ->
  exists l0 head l1 values axes l2 a0 a1 b0 b1 c0 c1 ra rb rc ua ua' ub ub' uc uc',
  contains (report s density C S eigv)
    (["Variations of the seismic velocities:"; ""; l0; head; l1] ++ values ++ axes ++ [l2; "Notes: min/max values in km s^-1"]) /\
  says head (map Word ["V_s1"; "V_s2"; "V_p"]) /\
  values_rows ["min"; "max"; "min"; "max"; "min"; "max"] [a0; a1; b0; b1; c0; c1] [ra; rb; rc] values /\
  axis_rows ["Axis"] [ua; ua'; ub; ub'; uc; uc'] axes /\
  wave_extremes 0 a0 a1 ua ua' /\ ratio_is a0 a1 ra /\
  wave_extremes 1 b0 b1 ub ub' /\ ratio_is b0 b1 rb /\
  wave_extremes 2 c0 c1 uc uc' /\ ratio_is c0 c1 rc.
Proof.
  intros N D H. destruct (seismic_waves H) as (x0 & x1 & x2 & x3 & x4 & x5 & x6 & x7 & x8 & x9 & x10 & x11 & x12 & x13 & x14 & x15 & x16 & x17 & x18 & x19 & x20 & B & X).
  exists x0, x1, x2, x3, x4, x5, x6, x7, x8, x9, x10, x11, x12, x13, x14, x15, x16, x17, x18, x19, x20. split; [unfold report_run; rewrite (goes_on eigv N); destruct (Rlt_dec 0 density) as [_|K]; [|lra]; do 3 apply contains_skip; apply contains_left; exact B|exact X].
Qed.

(** After the time, the report announces exactly the figures of the run, one line
    each, in their order; without matplotlib it says so; else it is silent. *)
Theorem C87_figures s density C S eigv : (exists x, In x eigv /\ x <> 0%R) ->
  let files := flat_map (fun e => match e with Figure f => [f] | _ => [] end) (fst (run s density eigv)) in
  exists before, report s density C S eigv = before ++ [""; time_line] ++
    (if polar s && plotting s && matplotlib s then ["" ; "Plotting results as requested:"] ++ map (fun f => " - figure " +++ f +++ " generated") files
     else if plotting s && negb (matplotlib s) then [""; "Plotting requested, but Matplotlib not found"] else []) /\
  List.length files = if polar s && plotting s && matplotlib s then if Rlt_dec 0 density then 5 else 4 else 0.
Proof.
  intros N files. unfold files, run, report_run. rewrite (goes_on eigv N). cbn [fst]. eexists. split.
  - rewrite !app_assoc. apply f_equal2; [reflexivity|]. unfold report_plots, plots.
    destruct (polar s && plotting s && matplotlib s)%bool; [|reflexivity]. cbn [app]. do 2 f_equal.
    rewrite !flat_map_app. destruct (Rlt_dec 0 density), (polar s); cbn [flat_map map app initial_report]; rewrite !append_assoc; reflexivity.
  - unfold plots. rewrite !flat_map_app, !app_length. destruct (polar s && plotting s && matplotlib s)%bool; [|destruct (plotting s && negb (matplotlib s))%bool]; destruct (Rlt_dec 0 density), (polar s); reflexivity.
Qed.
(** An isotropic medium: one value for each modulus everywhere, and no anisotropy. *)
Lemma squeeze (f : vec -> R) c lo hi a b : (forall u, unit u -> f u = c) -> extremes f lo hi a b -> lo = c /\ hi = c.
Proof. intros F (A & B & <- & <- & _). now rewrite !F by assumption. Qed.
Lemma no_ratio c r : (0 < c)%R -> ratio_is c c r -> r = Fin 1.
Proof.
  intros P. destruct r as [x| |]; cbn [ratio_is]; [|lra|contradiction]. intros (_ & _ & E). f_equal.
  apply (Rmult_eq_reg_r c); lra.
Qed.
Theorem C87_isotropic s density K G C S eigv : (0 < K)%R -> (0 < G)%R ->
  (forall p q, p < 6 -> q < 6 -> C p q = isotropic_C K G p q) -> inverse6 C S -> (exists x, In x eigv /\ x <> 0%R) ->
  global (young_f S) 2 -> global (fun x => (- young_f S x)%R) 2 ->
  global (compressibility_f S) 2 -> global (fun x => (- compressibility_f S x)%R) 2 ->
  exists names v r h before block,
  contains (report s density C S eigv) ("Average properties" :: names ++ [v; r; h]) /\
  row5 "Voigt" K G v /\ row5 "Reuss" K G r /\ row5 "Hill" K G h /\
  contains (report s density C S eigv) (before ++ block) /\
  let E := young_textbook K G in let b := (1000 / (3 * K))%R in
  values_rows ["E_min"; "E_max"; "beta_min"; "beta_max"] [E; E; b; b] [Fin 1; Fin 1] block.
Proof.
  intros HK HG HC I N HE HE' HL HL'.
  pose proof (fun t p c => C29_isotropic K G C S t p c HK HG HC I) as ISO.
  destruct (ISO 0%R 0%R 0%R) as (Q1 & Q2 & Q3 & Q4 & Q5 & Q6 & _).
  destruct (C87_moduli s density C S eigv N HE HE' HL HL') as (l0 & head & l1 & values & axes & l2 & E0 & E1 & b0 & b1 & rE & rb & u0 & u1 & w0 & w1 & B & _ & V & _ & XE & RE & XL & RL).
  exists [sh "" "Bulk" "Young's" "Shear" "Poisson's"; sh "" "modulus" "modulus" "modulus" "ratio"; sh "" "(GPa)" "(GPa)" "(GPa)" ""].
  exists (sv "Voigt" (average_row (KV C) (GV C))), (sv "Reuss" (average_row (KR S) (GR S))), (sv "Hill" (average_row (KH C S) (GH C S))).
  exists ["Variations of the elastic moduli:"; ""; l0; head; l1], values.
  split; [unfold report_run; apply contains_left; unfold report_initial, averages; eexists [], _; reflexivity|].
  rewrite Q1, Q2, Q3, Q4, Q5, Q6, (proj1 (C29_rows K G HK HG)). split; [apply sv_says; literal|]. split; [apply sv_says; literal|]. split; [apply sv_says; literal|].
  split.
  { destruct B as (p & q & ->). rewrite <- !app_assoc. exists p. eexists. rewrite <- !app_assoc. reflexivity. }
  cbv zeta.
  assert (PE : (0 < young_textbook K G)%R) by (apply C29_rows; assumption).
  assert (PB : (0 < 1000 / (3 * K))%R) by (apply Rdiv_lt_0_compat; lra).
  destruct (squeeze (E_of S) (young_textbook K G) E0 E1 u0 u1) as (-> & ->); [|exact XE|].
  { intros u U. destruct (C30_half_ranges_suffice u U) as (t & p & _ & _ & W). destruct (ISO t p 0%R) as (_ & _ & _ & _ & _ & _ & Y & _). rewrite <- Y.
    unfold young_modulus, E_of. f_equal. destruct W as [(U1 & U2 & U3)|(U1 & U2 & U3)]; unfold loop_aaaa, sum3; rewrite U1, U2, U3; ring. }
  destruct (squeeze (elongation S) (1000 / (3 * K))%R b0 b1 w0 w1) as (-> & ->); [|exact XL|].
  { intros u U. destruct (C30_half_ranges_suffice u U) as (t & p & _ & _ & W). destruct (ISO t p 0%R) as (_ & _ & _ & _ & _ & _ & _ & Y & _). rewrite <- Y, elongation_is.
    unfold linear_compressibility. f_equal. destruct W as [(U1 & U2 & U3)|(U1 & U2 & U3)]; unfold loop_aakk, sum3; rewrite U1, U2, U3; ring. }
  rewrite (no_ratio _ _ PE RE), (no_ratio _ _ PB RL) in V. exact V.
Qed.
End Run.
Arguments wave_extremes : clear implicits.

(** A search which looks at one direction is right for an isotropic medium: all the
    hypotheses above hold together. *)
Example C87_instance : let S := isotropic_S 3 1 in
  symmetric6 (isotropic_C 3 1) /\ positive_definite (isotropic_C 3 1) /\ inverse6 (isotropic_C 3 1) S /\
  (forall f, In f [young_f S; compressibility_f S] -> global_search search_origin f 2 /\ global_search search_origin (fun x => (- f x)%R) 2) /\
  (forall f, In f [shear_f S; poisson_f S] -> global_search search_origin f 3 /\ global_search search_origin (fun x => (- f x)%R) 3) /\
  (forall k, k < 3 -> global_search search_origin (fun x => nth k [2; 2; 4]%R 0%R) 2 /\ global_search search_origin (fun x => (- nth k [2; 2; 4]%R 0)%R) 2).
Proof.
  intros S. destruct C29_instance as (A & B & D). split; [exact A|]. split; [exact D|]. split; [exact B|].
  pose proof (fun t p c => C29_isotropic 3 1 (isotropic_C 3 1) S t p c ltac:(lra) ltac:(lra) (fun p q _ _ => eq_refl) B) as ISO.
  assert (const : forall (f : angles -> R) c d, (forall x, f x = c) -> global_search search_origin f d /\ global_search search_origin (fun x => (- f x)%R) d).
  { intros f c d F. split; (split; [reflexivity|]; split; [apply repeat_length|]; intros x _; cbn [search_origin snd fst]; rewrite !F; lra). }
  split; [|split].
  - intros f [<-|[<-|[]]]; eapply const; intros x; apply (ISO (ang x 0) (ang x 1) 0%R).
  - intros f [<-|[<-|[]]]; eapply const; intros x; apply (ISO (ang x 0) (ang x 1) (ang x 2)).
  - intros k _. eapply const. reflexivity.
Qed.

Print Assumptions C87_input.
Print Assumptions C87_averages.
Print Assumptions C87_velocities.
Print Assumptions C87_no_density_refuted.
Print Assumptions C87_eigenvalues.
Print Assumptions C87_moduli.
Print Assumptions C87_shear.
Print Assumptions C87_dual_table.
Print Assumptions C87_second_axis_refuted.
Print Assumptions C87_waves.
Print Assumptions C87_figures.
Print Assumptions C87_isotropic.
