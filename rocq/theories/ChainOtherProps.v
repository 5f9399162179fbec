(** C101: four outputs of CRYSTAL on disk, through `quantas inpgen ha` and
    `quantas qha`. *)
From Coq Require Import Reals String Ascii List Bool Arith ZArith NArith Lia Lra.
From Flocq Require Import Core.
From Verif Require Import Py DecimalModel FormatModel FormatProofs.
From Verif Require QhaReaderModel QhaReaderProps QhaWriterModel QhaWriterProofs YamlSpec UnitsModel UnitsSpec UnitsProps CliModel CrystalCellProps CrystalOutputSpec PolyfitProofs PolyModel PolyProps
  QhaRunModel QhaEqProps QhaFitProps QhaCommandModel QhaCommandProps QhaCommandProps2 QhaCommandProps3 HaInpgenModel HaInpgenProofs HaInpgenProps HaInpgenOtherProps ChainProps.
Import ListNotations.
Open Scope string_scope.
Open Scope list_scope.
Open Scope nat_scope.

(** ** Whole numbers are written as they are *)
Lemma nearest_int z : ZnearestE (IZR z) = z.
Proof. apply Zrnd_IZR. apply valid_rnd_N. Qed.
Lemma pow10_int k : powerRZ 10 (Z.of_nat k) = IZR (10 ^ Z.of_nat k).
Proof. now rewrite <- pow_IZR, pow_powerRZ. Qed.
Lemma fix_exact k z : fix_value k (IZR z) = IZR z.
Proof.
  unfold fix_value, scaled. rewrite <- abs_IZR, pow10_int, <- mult_IZR, nearest_int, Z2N.id by (apply Z.mul_nonneg_nonneg; [lia|apply Z.pow_nonneg; lia]).
  rewrite mult_IZR, abs_IZR, <- pow10_int. pose proof (p10_inv (Z.of_nat k)) as I. rewrite <- Rmult_assoc, sgn_abs, Rmult_assoc, I. ring.
Qed.
Lemma sci_exact k z : (Z.abs z < 10 ^ (Z.of_nat k + 1))%Z -> sci_value k (IZR z) = IZR z.
Proof.
  intros H. unfold sci_value, sci_parts. destruct (Req_bool_spec (IZR z) 0) as [E|N].
  { rewrite E. cbn [fst snd]. simpl Z.of_N. ring. }
  pose proof (exponent_bounds _ N) as (L & U). set (e := exponent (IZR z)) in *.
  assert (HU : (Rabs (IZR z) < powerRZ 10 (Z.of_nat k + 1))%R).
  { rewrite <- abs_IZR. replace (Z.of_nat k + 1)%Z with (Z.of_nat (S k)) by lia. rewrite pow10_int. apply IZR_lt. replace (Z.of_nat (S k)) with (Z.of_nat k + 1)%Z by lia. exact H. }
  assert (Le : (e <= Z.of_nat k)%Z).
  { apply Znot_gt_le. intros G. assert (powerRZ 10 (Z.of_nat k + 1) <= powerRZ 10 e)%R; [|lra]. change 10%R with (IZR (radix_val radix10)). rewrite <- !bpow_powerRZ. apply bpow_le. lia. }
  assert (Y : (Rabs (IZR z) * powerRZ 10 (Z.of_nat k - e) = IZR (Z.abs z * 10 ^ (Z.of_nat k - e)))%R).
  { rewrite mult_IZR, abs_IZR. replace (Z.of_nat k - e)%Z with (Z.of_nat (Z.to_nat (Z.of_nat k - e))) by lia. now rewrite pow10_int. }
  rewrite Y, nearest_int. assert (P0 : (0 <= Z.abs z * 10 ^ (Z.of_nat k - e))%Z) by (apply Z.mul_nonneg_nonneg; [lia|apply Z.pow_nonneg; lia]).
  assert (NE : (Z.to_N (Z.abs z * 10 ^ (Z.of_nat k - e)) =? 10 ^ N.of_nat (S k))%N = false).
  { apply N.eqb_neq. intros X. apply (f_equal Z.of_N) in X. rewrite Z2N.id in X by exact P0. apply (f_equal IZR) in X. rewrite nat_pow10, <- Y in X.
    assert (Rabs (IZR z) * powerRZ 10 (Z.of_nat k - e) < powerRZ 10 (e + 1) * powerRZ 10 (Z.of_nat k - e))%R by (apply Rmult_lt_compat_r; [apply p10|exact U]).
    rewrite <- powerRZ_add in H0 by lra. replace (e + 1 + (Z.of_nat k - e))%Z with (Z.of_nat (S k)) in H0 by lia. lra. }
  rewrite NE. cbn [fst snd]. rewrite Z2N.id by exact P0. rewrite <- Y. rewrite <- Rmult_assoc, sgn_abs, Rmult_assoc, <- powerRZ_add by lra.
  replace (Z.of_nat k - e + (e - Z.of_nat k))%Z with 0%Z by lia. cbn. ring.
Qed.
(** ** Four cubic cells with sides of 1, 2, 3 and 4; energies on a parabola with its
    lowest point at the second *)
Import CliModel HaInpgenModel HaInpgenProofs HaInpgenProps HaInpgenOtherProps ChainProps.
Import QhaCommandModel QhaCommandProps2.
Open Scope string_scope.
Open Scope list_scope.
Open Scope nat_scope.
Lemma side_1 : CrystalOutputSpec.gamma_output (readlines (text_of (gamma_lines "1" "-951" "215" "210"))) 1 (cubic 1) (-951) (modes_of 215 210).
Proof. gamma_case 215%Z 210%Z. Qed.
Lemma side_2 : CrystalOutputSpec.gamma_output (readlines (text_of (gamma_lines "2" "-1000" "215" "210"))) 1 (cubic 2) (-1000) (modes_of 215 210).
Proof. gamma_case 215%Z 210%Z. Qed.
Lemma side_3 : CrystalOutputSpec.gamma_output (readlines (text_of (gamma_lines "3" "-639" "215" "210"))) 1 (cubic 3) (-639) (modes_of 215 210).
Proof. gamma_case 215%Z 210%Z. Qed.
Lemma side_4 : CrystalOutputSpec.gamma_output (readlines (text_of (gamma_lines "4" "2136" "215" "210"))) 1 (cubic 4) 2136 (modes_of 215 210).
Proof. gamma_case 215%Z 210%Z. Qed.
Definition four_outputs : list printed := [at_gamma 1 (-951) 215 210; at_gamma 2 (-1000) 215 210; at_gamma 3 (-639) 215 210; at_gamma 4 2136 215 210].
Definition four_disk : world :=
  {| fs := fun p => if String.eqb p "set.txt" then File (text_of ["a.out"; "b.out"; "c.out"; "d.out"])
                    else if String.eqb p "a.out" then File (text_of (gamma_lines "1" "-951" "215" "210"))
                    else if String.eqb p "b.out" then File (text_of (gamma_lines "2" "-1000" "215" "210"))
                    else if String.eqb p "c.out" then File (text_of (gamma_lines "3" "-639" "215" "210"))
                    else if String.eqb p "d.out" then File (text_of (gamma_lines "4" "2136" "215" "210")) else Absent;
     screen := [] |}.
Definition four_files : list string := ["a.out"; "b.out"; "c.out"; "d.out"].
Notation second := (at_gamma 2 (-1000) 215 210).
Lemma four_set : a_set (fun _ => true) four_disk four_files four_outputs 1 second.
Proof.
  constructor; [|reflexivity|cbn; lia|cbn; lia|].
  - repeat constructor; eexists; (split; [reflexivity|]; split; [reflexivity|]); apply prints_gamma.
    + apply side_1. + apply side_2. + apply side_3. + apply side_4.
  - intros p [<-|[<-|[<-|[<-|[]]]]]; cbn; lia.
Qed.
Lemma four_inputs : inputs (fun _ => true) four_disk "set.txt" true four_files.
Proof. eexists. split; [reflexivity|]. split; reflexivity. Qed.
Lemma cube a : CrystalCellProps.rdet (cubic a) = (a * a * a)%R.
Proof. unfold CrystalCellProps.rdet, cubic. cbn [Nat.eqb]. ring. Qed.
Lemma four_volumes : map p_volume four_outputs = [1; 8; 27; 64]%R.
Proof. unfold four_outputs, at_gamma. cbn [map p_volume]. rewrite !cube. repeat (f_equal; try lra). Qed.
Notation mgo := (as_written "four volumes" four_outputs second).
Lemma mgo_volumes : c_vols mgo = [1; 8; 27; 64]%R.
Proof. transitivity (map (fix_value 8) (map p_volume four_outputs)); [cbn [as_written c_vols]; now rewrite map_map|]. rewrite four_volumes. cbn [map]. now rewrite !fix_exact. Qed.
Lemma mgo_energies : c_ens mgo = [-951; -1000; -639; 2136]%R.
Proof. cbn [as_written c_ens four_outputs map p_energy at_gamma]. rewrite !sci_exact by reflexivity. reflexivity. Qed.
Definition four_options (sch : string) : qha_options := QhaCommandProps3.choose sch "poly" false QhaCommandProps3.sixty QhaCommandProps3.pressed.
Lemma mgo_isotherm h k T : exists C, forall i, i < 4 -> isotherm h k mgo QhaCommandProps3.good_si T i = (nth i [-951; -1000; -639; 2136] 0 + C)%R.
Proof.
  exists (modes_at mgo (fun q b => UnitsSpec.si (df QhaCommandProps3.good_si) (c_F mgo q b 0)) (oscillator_F h k T) / fst (de QhaCommandProps3.good_si))%R. intros i Hi. unfold isotherm. rewrite mgo_energies. f_equal. f_equal.
  destruct i as [|[|[|[|i]]]]; try lia; reflexivity.
Qed.
Lemma mgo_parabola sch h k T g : fits_isotherm h k (four_options sch) mgo QhaCommandProps3.good_si T g ->
  (forall v, PolyModel.polyval v (PolyModel.deriv g) = 2 * v - 16)%R /\ (forall v, PolyModel.polyval v (PolyModel.deriv (PolyModel.deriv g)) = 2)%R.
Proof.
  intros H. destruct (mgo_isotherm h k T) as (C & EC). unfold fits_isotherm in H.
  assert (X : forall v, PolyModel.polyval v g = PolyModel.polyval v [-936 + C; -16; 1]%R).
  { apply (QhaCommandProps3.fitted_exactly 2 4 (volume_of mgo) (isotherm h k mgo QhaCommandProps3.good_si T)).
    - unfold volume_of. rewrite mgo_volumes. intros i j Hi Hj E. destruct i as [|[|[|[|i]]]]; try lia; destruct j as [|[|[|[|j]]]]; try lia; cbn in E; lra.
    - lia.
    - cbn. lia.
    - rewrite mgo_volumes in H. exact H.
    - intros j Hj. rewrite EC by exact Hj. unfold volume_of. rewrite mgo_volumes. destruct j as [|[|[|[|j]]]]; try lia; cbn; ring. }
  split; intros v.
  - rewrite (QhaEqProps.deriv_ext _ _ X). cbn. ring.
  - rewrite (QhaEqProps.deriv_ext _ _ (QhaEqProps.deriv_ext _ _ X)). cbn. ring.
Qed.
Lemma mgo_minimises sch h k : minimises h k QhaEqProps.linear_roots QhaCommandProps3.fit_with_errors (four_options sch) mgo QhaCommandProps3.good_si.
Proof.
  left. split; [reflexivity|]. split; [intros g L; apply QhaEqProps.linear_roots_exact; exact L|].
  intros temps press _ _ t0 p0 g _ _ F0 p1 _. destruct (mgo_parabola _ _ _ _ _ F0) as (D1 & D2). exists (8 - p1 / 2)%R. rewrite D1, D2. lra.
Qed.
Lemma four_generating : generating (fun _ => true) "set.txt" "mgo" true 1 "four volumes" four_disk four_files four_outputs second.
Proof.
  split.
  - exact four_inputs.
  - exact four_set.
  - split; [eexists _, _; split; reflexivity|split; reflexivity].
  - change (Absent <> Dir). discriminate.
  - cbn [p_points at_gamma QhaReaderProps.sum_to p_weight]. rewrite (Ztrunc_IZR 1). lra.
  - cbn. lia.
  - intros i j p q N Ei Ej. pose proof (map_nth_error p_volume _ _ Ei) as Vi. pose proof (map_nth_error p_volume _ _ Ej) as Vj. rewrite four_volumes in Vi, Vj.
    destruct i as [|[|[|[|[|i]]]]]; try discriminate; destruct j as [|[|[|[|[|j]]]]]; try discriminate; try congruence; injection Vi as <-; injection Vj as <-; unfold Rabs; destruct (Rcase_abs _); lra.
Qed.
Lemma four_asking sch : In sch ["freq"; "td"] ->
  asking UnitsProps.codata PolyfitProofs.gram_schmidt_fit "mgo" four_disk (four_options sch) None (Ok false) four_outputs QhaCommandProps3.good_si.
Proof.
  intros A. split.
  - cbn; tauto.
  - split; [exact A|split; cbn; tauto].
  - cbn; lra.
  - cbn; lra.
  - cbn; lia.
  - apply PolyfitProofs.gram_schmidt_solver.
  - change (Absent <> Dir). discriminate.
  - split; intros X; vm_compute in X; discriminate X.
  - left. reflexivity.
  - apply QhaCommandProps3.good_units.
  - intros temps AT x X. pose proof (QhaCommandProps3.asked_kelvin _ temps (or_introl eq_refl) AT x X). cbn [dt QhaCommandProps3.good_si]. unfold UnitsSpec.si. cbn. lra.
Qed.
(** With either scheme the volume at zero pressure is 8, the volume of the output
    with the lowest energy. *)
Example C101_instance sch t xml_load float_text times total_time encode special_case : In sch ["freq"; "td"] ->
  exists v v' h temps press r,
    ha_inpgen t (fun _ => true) yaml_reader xml_load UnitsProps.codata Crystal "set.txt" "mgo" true 1 (Ok "four volumes") four_disk = Some (Ok tt, v) /\
    qha_main UnitsProps.codata (6 / 10 ^ 34) (1 / 10 ^ 23) yaml_reader PolyfitProofs.gram_schmidt_fit QhaEqProps.linear_roots QhaCommandProps3.fit_with_errors float_text times total_time encode special_case
      (four_options sch) "mgo.yaml" None true false (Ok false) v = (Ok tt, v') /\
    fs v' "mgo_QHA.hdf5" = File (encode h) /\ holds (four_options sch) h temps press r /\ List.length temps = 60 /\ forall i, i < 60 -> QhaRunModel.VT r i 0 = 8%R.
Proof.
  intros A. destruct QhaCommandProps3.constants_positive as (H1 & H2).
  assert (YL : forall text y, YamlSpec.yaml_of text = Some y -> yaml_reader text = QhaReaderModel.Parsed y) by (intros text y E; unfold yaml_reader; now rewrite E).
  destruct (C101_prepared UnitsProps.codata t (fun _ => true) yaml_reader xml_load PolyfitProofs.gram_schmidt_fit YL "set.txt" "mgo" true 1 "four volumes" four_disk (four_options sch) None (Ok false)
     four_files four_outputs second QhaCommandProps3.good_si four_generating (four_asking sch A)) as (v & text & y & C & _ & PR & _).
  destruct (C96_minimum UnitsProps.codata (6 / 10 ^ 34) (1 / 10 ^ 23) UnitsProps.codata_positive H1 H2 yaml_reader PolyfitProofs.gram_schmidt_fit QhaEqProps.linear_roots QhaCommandProps3.fit_with_errors float_text times total_time encode special_case
     (four_options sch) "mgo.yaml" None true false (Ok false) v text y mgo QhaCommandProps3.good_si PR (or_introl eq_refl) eq_refl (mgo_minimises sch _ _) eq_refl)
     as (v' & h & temps & press & r & E & S1 & S2 & AT & AP & CL & _).
  pose proof (QhaCommandProps3.sixty_points _ AT) as L. exists v, v', h, temps, press, r. split; [exact C|]. split; [exact E|]. split; [exact S1|]. split; [exact S2|]. split; [exact L|].
  intros i Hi. rewrite <- L in Hi. destruct (CL i Hi) as (g & F0 & M). destruct AP as (P0 & Up & _). cbn [fst snd QhaCommandProps3.pressed temperatures pressures QhaCommandProps3.choose four_options] in P0, Up.
  assert (J : 0 < List.length press) by (apply Up; [lra|]; cbn; lra).
  pose proof (M 0 J) as N. rewrite P0 in N by exact J. destruct (mgo_parabola sch _ _ _ g F0) as (D1 & D2).
  destruct N as (p0 & EP & N & _). rewrite D1 in N.
  assert (Z : p0 = 0%R) by (apply QhaCommandProps3.zero_target; rewrite EP; cbn; ring). lra.
Qed.
