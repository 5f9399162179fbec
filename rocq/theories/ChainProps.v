(** C101: commands run one after the other. Here: `quantas inpgen ha` on the outputs
    of CRYSTAL, then `quantas qha` on the file written. Concrete runs which meet the
    hypotheses are in ChainOtherProps. *)
From Coq Require Import Reals String Ascii List Bool Arith ZArith NArith Lia Lra.
From Flocq Require Import Core.
From Verif Require Import Py DecimalModel FormatProofs.
From Verif Require QhaReaderModel QhaReaderProps QhaWriterModel QhaWriterProofs QhaWriterProps YamlSpec UnitsModel UnitsSpec CliModel CrystalCellProps PolyfitProofs
  PhononInputModel PhononInputProps H5Model QhaRunModel QhaFitProps QhaCommandModel QhaCommandProps QhaCommandProps2 HaInpgenModel HaInpgenProofs HaInpgenProps.
Import ListNotations.
Open Scope string_scope.
Open Scope list_scope.
Open Scope nat_scope.

(** ** The crystal in the input file *)
Section Written.
Import QhaReaderModel QhaReaderProps QhaWriterModel QhaWriterProofs QhaWriterProps PhononInputProps.
(** A number without its decimals *)
Definition cut (x : R) : R := IZR (Ztrunc x).
Definition cut3 (d : three_reals) : R * R * R := let '(a, b, c) := d in (cut a, cut b, cut c).
Lemma document_described job na dims nq vols ens q s w fr : vols <> [] -> (forall i j, List.length (fr i j) = List.length vols) ->
  sum_to nq (fun i => cut (w i)) <> 0%R -> jobname (y_doc (Z.of_nat na) dims nq (na * 3) vols ens q s w fr (YStr (strip job))) = Ok (strip job) ->
  describes (y_doc (Z.of_nat na) dims nq (na * 3) vols ens q s w fr (YStr (strip job))) (strip job) na nq nq
    (let '(a, b, c) := dims in (cut3 a, cut3 b, cut3 c)) (map (fix_value 8) vols) (map (sci_value 12) ens) (fun i => cut (w i))
    (fun i j k => fix_value 10 (nth k (fr i j) 0%R)).
Proof.
  intros V L Z J. set (y := y_doc _ _ _ _ _ _ _ _ _ _ _) in *.
  assert (Vy : QhaReaderModel.volume y = Ok (Array (map Num (map (fix_value 8) vols)))).
  { unfold QhaReaderModel.volume. change (get "volume" y) with (@Ok yaml (YList (map (num_of (fix_value 8)) vols))). cbn [bind]. apply float_list. }
  split; [exact J| |apply le_n|exact Vy| | |exact Z].
  - split; [reflexivity|]. split; [reflexivity|]. split.
    + exists (map Num (map (fix_value 8) vols)). split; [exact Vy|now rewrite !map_length].
    + exists (map (y_q (na * 3) q s w fr) (seq 0 nq)). split; [reflexivity|]. split; [now rewrite map_length, seq_length|].
      intros i qy E.
      assert (Hi : qy = y_q (na * 3) q s w fr i).
      { rewrite nth_error_map in E. destruct (nth_error (seq 0 nq) i) as [i'|] eqn:Ei; [|discriminate]. injection E as <-.
        assert (i' = i) as ->; [|reflexivity]. assert (Hl : i < nq) by (rewrite <- (seq_length nq 0); apply nth_error_Some; congruence).
        apply (nth_error_nth (seq 0 nq) i 0) in Ei. rewrite seq_nth in Ei by exact Hl. lia. }
      subst qy. exists (map (y_mode fr i) (seq 0 (na * 3))), (YInt (Ztrunc (w i))). split; [reflexivity|]. split; [now rewrite map_length, seq_length|].
      split; [|split; reflexivity].
      intros j b Ej. rewrite nth_error_map in Ej. destruct (nth_error (seq 0 (na * 3)) j) as [j'|] eqn:Es; [|discriminate]. injection Ej as <-.
      assert (j' = j) as ->. { assert (Hl : j < na * 3) by (rewrite <- (seq_length (na * 3) 0); apply nth_error_Some; congruence).
        apply (nth_error_nth _ _ 0) in Es. rewrite seq_nth in Es by exact Hl. lia. }
      eexists; eexists. split; [reflexivity|]. split; [apply float_list|]. split; [now rewrite !map_length, L|].
      rewrite map_length. intros k Hk. rewrite map_map. rewrite (nth_indep _ NaN (Num (fix_value 10 0))) by (rewrite map_length, L; exact Hk).
      apply (map_nth (fun x => Num (fix_value 10 x))).
  - unfold QhaReaderModel.energy. change (get "energy" y) with (@Ok yaml (YList (map (num_of (sci_value 12)) ens))). cbn [bind]. apply float_list.
  - destruct dims as ((((a, b), c), ((d, e), f)), ((g, h), i)). cbn [cut3]. unfold supercell_says.
    exists (YList [YInt (Ztrunc a); YInt (Ztrunc b); YInt (Ztrunc c)]), (YList [YInt (Ztrunc d); YInt (Ztrunc e); YInt (Ztrunc f)]), (YList [YInt (Ztrunc g); YInt (Ztrunc h); YInt (Ztrunc i)]).
    split; [reflexivity|]. repeat split; eexists _, _, _; repeat split.
Qed.
End Written.

(** ** From the outputs to the quasi-harmonic results *)
Section Chain.
Import CliModel HaInpgenModel HaInpgenProofs HaInpgenProps QhaCommandModel.
Import QhaCommandProps2.
Open Scope string_scope.
Open Scope list_scope.
Open Scope nat_scope.
(** The crystal of which the file speaks: from every output its volume (8 decimals),
    energy (13 digits) and frequencies (10 decimals), from the reference the rest. *)
Definition as_written (job : string) (ps : list printed) (r : printed) : crystal :=
  {| c_name := strip job; c_na := p_atoms r; c_nq := p_points r; c_given := p_points r;
     c_cell := (let '(a, b, c) := rows (p_expansion r) in (cut3 a, cut3 b, cut3 c));
     c_vols := map (fun p => fix_value 8 (p_volume p)) ps; c_ens := map (fun p => sci_value 12 (p_energy p)) ps;
     c_wt := (fun i => cut (p_weight r i)); c_F := (fun i j k => fix_value 10 (nth k (map (fun p => p_frequency p i j) ps) 0%R)) |}.
(** c speaks of the outputs ps, with r as reference, to the digits written. *)
Record faithful (c : crystal) (job : string) (ps : list printed) (r : printed) : Prop := {
  f_name : c_name c = strip job;
  f_counts : c_na c = p_atoms r /\ c_nq c = p_points r /\ c_given c = p_points r;
  f_volumes : Forall2 (rounded 8) (map p_volume ps) (c_vols c);
  f_energies : Forall2 (rounded_sig 12) (map p_energy ps) (c_ens c);
  f_weights : forall i, i < p_points r -> c_wt c i = IZR (Ztrunc (p_weight r i));
  f_frequencies : forall i j k p, i < p_points r -> j < p_atoms r * 3 -> nth_error ps k = Some p -> rounded 10 (p_frequency p i j) (c_F c i j k) }.
Lemma written_faithful job ps r : faithful (as_written job ps r) job ps r.
Proof.
  assert (M : forall (P : R -> R -> Prop) f (g : printed -> R), (forall x, P x (f x)) -> Forall2 P (map g ps) (map (fun p => f (g p)) ps)).
  { intros P0 f g H. clear -H. induction ps; constructor; auto. }
  split; cbn [as_written c_name c_na c_nq c_given c_vols c_ens c_wt c_F]; auto.
  - apply M, fix_rounded.
  - apply M, sci_rounded.
  - intros i j k p _ _ E. rewrite (nth_error_nth _ _ _ (map_nth_error (fun p => p_frequency p i j) _ _ E)). apply fix_rounded.
Qed.
(** Volumes which differ by more than the last decimal written stay different. *)
Definition apart (ps : list printed) : Prop :=
  forall i j p q, i <> j -> nth_error ps i = Some p -> nth_error ps j = Some q -> (/ 100000000 < Rabs (p_volume p - p_volume q))%R.
Lemma rounded_apart x y v : (/ 100000000 < Rabs (x - y))%R -> rounded 8 x v -> rounded 8 y v -> False.
Proof.
  intros H (_ & A) (_ & B). revert H A B. assert (E : powerRZ 10 (- Z.of_nat 8) = (/ 100000000)%R) by (change (- Z.of_nat 8)%Z with (-8)%Z; unfold powerRZ; cbn [Pos.to_nat Pos.iter_op Nat.add pow]; simpl; field). rewrite E.
  unfold Rabs. destruct (Rcase_abs _), (Rcase_abs _), (Rcase_abs _); lra.
Qed.
Lemma volumes_apart ps : apart ps -> NoDup (map (fun p => fix_value 8 (p_volume p)) ps).
Proof.
  intros H. apply NoDup_nth_error. intros i j Hi E. rewrite map_length in Hi. destruct (Nat.eq_dec i j) as [|N]; [assumption|exfalso].
  rewrite !nth_error_map in E. destruct (nth_error ps i) as [p|] eqn:Ei; [|apply nth_error_None in Ei; lia].
  destruct (nth_error ps j) as [q|] eqn:Ej; [|discriminate]. injection E as E.
  apply (rounded_apart (p_volume p) (p_volume q) (fix_value 8 (p_volume p))); [exact (H i j p q N Ei Ej)|apply fix_rounded|rewrite E; apply fix_rounded].
Qed.

Variable K : UnitsModel.constants.
Variables hplanck kboltzmann : R.
Hypothesis PK : UnitsSpec.positive_constants K.
Hypotheses (Hh : (0 < hplanck)%R) (Hk : (0 < kboltzmann)%R).
Variable t : texts.
Variable is_text : string -> bool.
Variable yaml_load : string -> QhaReaderModel.parsed.
Variable xml_load : string -> PhonopyModel.xml.
Variable np_polyfit : nat -> (nat -> R) -> (nat -> R) -> nat -> list R.
Variable roots : list R -> list (R * R).
Variable eos_fit : string -> nat -> (nat -> R) -> (nat -> R) -> QhaRunModel.outcome ((R * R * R * R) * (ReportModel.shown * ReportModel.shown * ReportModel.shown * ReportModel.shown)).
Variable float_text : R -> string.
Variable times : nat -> string.
Variable total_time : string.
Variable encode : H5Model.result_file -> string.
Variable special_case : qha_options -> QhaReaderModel.yaml -> job.
Hypothesis YL : forall text y, YamlSpec.yaml_of text = Some y -> yaml_load text = QhaReaderModel.Parsed y.
Variables (filename outfile : string) (is_list : bool) (ref : Z) (description : string) (w : world).
Variables (u : qha_options) (o : option string) (silent d : bool) (a : result bool).
Variables (files : list string) (ps : list printed) (r : printed) (m : in_si).
Notation f := (outfile +++ ".yaml").
Notation out := (outpath (qha_command (qha_print_settings u)) f o).
Notation lf := (logpath out).
Notation inpgen := (ha_inpgen t is_text yaml_load xml_load K Crystal filename outfile is_list ref (Ok description) w).
Notation qha v := (qha_main K hplanck kboltzmann yaml_load np_polyfit roots eos_fit float_text times total_time encode special_case u f o silent d a v).
Notation c := (as_written description ps r).
Notation written v claim := (computed K hplanck kboltzmann yaml_load np_polyfit roots eos_fit float_text times total_time encode special_case u f o silent d a v claim).

(** What the first command is given: outputs, at least four, with volumes which
    differ, a description, and a place to write. *)
Record generating : Prop := {
  g_inputs : inputs is_text w filename is_list files;
  g_set : a_set is_text w files ps ref r;
  g_description : QhaWriterProofs.plain description;
  g_place : fs w f <> Dir;
  g_weights : QhaReaderProps.sum_to (p_points r) (fun i => IZR (Ztrunc (p_weight r i))) <> 0%R;
  g_four : 4 <= List.length ps;
  g_apart : apart ps }.
(** What the second is asked. *)
Record asking : Prop := {
  q_units : In (eunit_q u) ["Ha"; "eV"; "Ry"] /\ In (vunit_q u) ["A"; "bohr"] /\ In (funit_q u) ["cm-1"; "THz"; "Hz"] /\ In (tunit_q u) ["K"; "C"] /\ In (punit_q u) ["GPa"; "kbar"];
  q_choices : In (scheme u) ["freq"; "td"] /\ In (minim u) ["poly"; "eos"] /\ In (eos_tag u) ["M"; "BM"; "PT"; "V"];
  q_temperatures : QhaCommandProps.range_ok (temperatures u);
  q_pressures : QhaCommandProps.range_ok (pressures u);
  q_degree : energy_degree u < List.length ps /\ frequency_degree u < List.length ps;
  q_solver : PolyfitProofs.least_squares_solver np_polyfit;
  q_log : fs w lf <> Dir;
  q_paths : lf <> f /\ out <> f;
  q_free : fs w out = Absent \/ fs w out <> Dir /\ a = Ok true;
  q_mean : units_mean K u m;
  q_kelvin : forall temps, QhaCommandProps2.asked (temperatures u) temps -> forall t, In t temps -> (0 <= UnitsSpec.si (dt m) t)%R }.
Hypothesis GE : generating.
Hypothesis AS : asking.

Lemma described : exists text y v, inpgen = Some (Ok tt, v) /\ fs v f = File text /\ (forall p, p <> f -> fs v p = fs w p) /\
  YamlSpec.yaml_of text = Some y /\ says_crystal y c.
Proof.
  destruct GE as [I0 S0 J D Sw F4 Ap]. destruct (set_written t is_text yaml_load xml_load K w filename is_list files outfile ref description ps r I0 S0 J D) as (ls & y & L & Y & Jn & _ & C).
  destruct (set_member _ _ _ _ _ _ S0) as (Ir & Q). exists (join_lines ls), y. eexists. split; [exact C|]. cbn [fs]. unfold update, output_path.
  split; [now rewrite String.eqb_refl|]. split; [intros p N; destruct (String.eqb_spec p f); [contradiction|reflexivity]|]. split; [exact Y|].
  rewrite (QhaWriterProps.multiple_shape (map record ps) description ref (record r) (set_item _ _ _ _ _ _ S0)) in L; cycle 1.
  { cbn [record QhaWriterModel.qpoints QhaWriterModel.qcoords]. now rewrite map_length, seq_length. }
  { cbn [record QhaWriterModel.qpoints QhaWriterModel.weights]. now rewrite map_length, seq_length. }
  { now apply set_covers in S0. }
  injection L as L. rewrite <- L in Y. rewrite QhaWriterProofs.written_document with (yj := QhaReaderModel.YStr (strip description)) in Y; cycle 1.
  { apply QhaWriterProofs.plain_line, J. }
  { intros ?. apply QhaWriterProofs.job_plain, J. }
  1, 2: destruct ps; [contradiction|discriminate].
  { intros i j. destruct ps; [contradiction|discriminate]. }
  { cbn [record QhaWriterModel.nphonon]. pose proof (s_atoms _ _ _ _ _ _ S0). lia. }
  { exact Q. }
  injection Y as Y. subst y. cbn [record QhaWriterModel.natom QhaWriterModel.dim QhaWriterModel.qpoints QhaWriterModel.nphonon] in *.
  match type of Jn with QhaReaderModel.jobname (QhaWriterProofs.y_doc _ ?D _ _ ?V ?E0 ?Q0 ?S1 ?W ?FR _) = _ =>
    pose proof (document_described description (p_atoms r) D (p_points r) V E0 Q0 S1 W FR) as DD end.
  assert (WE : forall i, i < p_points r -> cut (nth i (QhaWriterModel.weights (record r)) 0%R) = IZR (Ztrunc (p_weight r i))).
  { intros i Hi. cbn [record QhaWriterModel.weights]. now rewrite seq_nth_in. }
  assert (SE : forall n g g', (forall i, i < n -> g i = g' i) -> QhaReaderProps.sum_to n g = QhaReaderProps.sum_to n g').
  { clear. induction n; intros g g' H; [reflexivity|]. cbn [QhaReaderProps.sum_to]. rewrite (H n) by lia. f_equal. apply IHn. intros i Hi. apply H. lia. }
  destruct DD as [D1 D2 D3 D4 D5 D6 D7].
  { now destruct ps. }
  { intros i j. now rewrite !map_length. }
  { intros X. apply Sw. rewrite <- X. apply SE. intros i Hi. symmetry. exact (WE i Hi). }
  { exact Jn. }
  assert (EV : map (fix_value 8) (map QhaWriterModel.volume (map record ps)) = map (fun p => fix_value 8 (p_volume p)) ps) by (rewrite !map_map; reflexivity).
  assert (EE : map (sci_value 12) (map QhaWriterModel.energy (map record ps)) = map (fun p => sci_value 12 (p_energy p)) ps) by (rewrite !map_map; reflexivity).
  rewrite EV in D2, D4. rewrite EE in D5. unfold says_crystal, as_written. cbn [c_name c_na c_nq c_given c_cell c_vols c_ens c_wt c_F].
  split; [exact D1| |exact D3|exact D4|exact D5|exact D6|].
  - destruct D2 as (E1 & E2 & E3 & qs & E4 & E5 & E6). split; [exact E1|]. split; [exact E2|]. split.
    { destruct E3 as (l & E3 & E3'). exists l. rewrite !map_length in *. now split. }
    exists qs. split; [exact E4|]. split; [exact E5|]. intros i q Eq. destruct (E6 i q Eq) as (bs & tb & B1 & B2 & B3 & B4 & B5).
    assert (Hi : i < p_points r) by (rewrite <- E5; apply nth_error_Some; congruence).
    exists bs, tb. split; [exact B1|]. split; [exact B2|]. split; [|split; [exact B4|etransitivity; [exact B5|do 3 f_equal; exact (WE i Hi)]]].
    intros j b Eb. assert (Hj : j < p_atoms r * 3) by (rewrite <- B2; apply nth_error_Some; congruence).
    destruct (B3 j b Eb) as (t0 & l & X1 & X2 & X3 & X4). exists t0, l. split; [exact X1|]. split; [exact X2|]. rewrite !map_length in *. split; [exact X3|].
    intros k Hk0. rewrite (X4 k Hk0). do 2 f_equal. destruct (nth_error ps k) as [p|] eqn:Ek; [|apply nth_error_None in Ek; lia].
    rewrite map_map. rewrite (nth_error_nth _ _ _ (map_nth_error (fun p => p_frequency p i j) _ _ Ek)), (nth_error_nth _ _ _ (map_nth_error (fun x => QhaWriterProps.frequency (record x) i j) _ _ Ek)).
    destruct (s_alike _ _ _ _ _ _ S0 p (nth_error_In _ _ Ek)). apply record_frequency; lia.
  - exact Sw.
Qed.
(** After the first command everything is prepared for the second. *)
Theorem C101_prepared : exists v text y, inpgen = Some (Ok tt, v) /\ (forall p, p <> f -> fs v p = fs w p) /\
  prepared K yaml_load np_polyfit u f o a v text y c m /\ faithful c description ps r.
Proof.
  destruct described as (text & y & v & C & F & O & Y & S0). exists v, text, y. split; [exact C|]. split; [exact O|]. split; [|apply written_faithful].
  destruct AS as [U Ch T0 P0 De So Lo (Lf & Of) Fr Me Ke]. split; auto.
  - split; auto. now rewrite O.
  - cbn [as_written c_vols]. rewrite map_length. apply GE.
  - cbn [as_written c_vols c_ens]. now rewrite !map_length.
  - apply volumes_apart, GE.
  - cbn [as_written c_vols]. now rewrite map_length.
  - unfold QhaCommandProps.out_free. now rewrite O.
Qed.
(** What the second command computes is computed from what the outputs print. *)
Definition chain (claim : crystal -> list R -> list R -> QhaRunModel.results -> Prop) : Prop :=
  exists v c', inpgen = Some (Ok tt, v) /\ faithful c' description ps r /\ computed K hplanck kboltzmann yaml_load np_polyfit roots eos_fit float_text times total_time encode special_case u f o silent d a v (claim c').
Hypothesis AC : acoustic u = false.
Hypothesis TB : tabulates eos_fit u c.
Hypothesis MN : minimises hplanck kboltzmann roots eos_fit u c m.
Lemma chained claim : (forall v text y, prepared K yaml_load np_polyfit u f o a v text y c m -> written v (claim c)) -> chain claim.
Proof. intros H. destruct C101_prepared as (v & text & y & C & _ & PR & FA). exists v, c. split; [exact C|]. split; [exact FA|]. exact (H v text y PR). Qed.
(** With polynomials: at every temperature and pressure the volume minimises F + PV,
    with F the fit of the harmonic free energies of the outputs. *)
Theorem C101_volumes : minim u = "poly" -> chain (fun c temps press r => forall i, i < List.length temps ->
  exists g, QhaFitProps.fitted (energy_degree u) (List.length ps) (volume_of c) (isotherm hplanck kboltzmann c m (UnitsSpec.si (dt m) (nth i temps 0%R))) g /\
  forall j, j < List.length press -> QhaFitProps.volume_is_minimum g (nth j press 0%R) (QhaRunModel.VT r i j) (ee m) (ve m) (dp m)).
Proof.
  intros MI. apply chained. intros v text y PR. cbv beta.
  replace (List.length ps) with (List.length (c_vols c)) by (cbn [as_written c_vols]; apply map_length).
  exact (C96_minimum K hplanck kboltzmann PK Hh Hk yaml_load np_polyfit roots eos_fit float_text times total_time encode special_case u f o silent d a v text y c m PR TB AC MN MI).
Qed.
(** F = U - TS, H = U + PV and G = F + PV in every entry. *)
Theorem C101_potentials : chain (fun _ temps press r => forall i j, i < List.length temps -> j < List.length press ->
  let T := UnitsSpec.si (dt m) (nth i temps 0%R) in let PV := (fst (dp m) * nth j press 0 * (fst (dv m) * QhaRunModel.VT r i j))%R in
  QhaRunModel.F r i j = (QhaRunModel.Utot r i j - T * QhaRunModel.Ent r i j / 1000)%R /\
  (fst (de m) * (QhaRunModel.H r i j - QhaRunModel.Utot r i j) = PV)%R /\ (fst (de m) * (QhaRunModel.G r i j - QhaRunModel.F r i j) = PV)%R).
Proof.
  apply chained. intros v text y PR.
  destruct (C96_saved K hplanck kboltzmann PK Hh Hk yaml_load np_polyfit roots eos_fit float_text times total_time encode special_case u f o silent d a v text y c m PR TB AC MN)
    as (v1 & h & temps & press & r1 & R1 & F1 & H1 & A1 & B1 & G1 & O1).
  exists v1, h, temps, press, r1. do 5 (split; [assumption|]). split; [|exact O1]. intros i j Hi Hj T PV. destruct (G1 i j Hi Hj) as (X1 & _ & _ & X2 & X3). now split.
Qed.
End Chain.

Print Assumptions C101_prepared.
Print Assumptions C101_volumes.
Print Assumptions C101_potentials.
