(** C95: `quantas ha FILE` from the text of the file to its log and result file. *)
From Coq Require Import Reals String Ascii List Bool Arith ZArith Lia Lra FunctionalExtensionality.
From Flocq Require Import Core.
From Verif Require QhaReaderModel QhaReaderProps QhaRunModel QhaEqProps CliModel CliProps CitationsModel RunLogProps StatMechModel StatMechSpec YamlSpec QhaWriterModel QhaWriterProps.
From Verif Require Import Py DecimalModel DecimalProofs FormatModel FormatProofs TableModel StoreModel UnitsModel UnitsSpec UnitsProofs UnitsProps GridModel GridProps ReportModel ReportSpec ReportProofs
  QhaReportModel QhaReportProps QhaReportProps2 H5Model PhononInputModel PhononInputProps HaCommandModel.
Import ListNotations.
Open Scope string_scope.
Open Scope list_scope.
Open Scope nat_scope.

(** ** What a result file holds *)
Definition vector (h : result_file) (name unit : string) (l : list R) : Prop :=
  exists d, TableModel.find name (named h) = Some d /\ content d = Vec l /\ TableModel.find "unit" (attributes d) = Some unit.
Definition table (h : result_file) (name unit : string) (n m : nat) (f : nat -> nat -> R) : Prop :=
  exists d rows, TableModel.find name (named h) = Some d /\ content d = Mat rows /\ TableModel.find "unit" (attributes d) = Some unit /\
  List.length rows = n /\ forall i, i < n -> List.length (nth i rows []) = m /\ forall j, j < m -> nth j (nth i rows []) 0%R = f i j.
(** The file tells what it is, and every array has its unit. *)
Definition documented (h : result_file) : Prop :=
  (exists text, about h = Some text) /\ forall name d, In (name, d) (named h) -> exists unit, TableModel.find "unit" (attributes d) = Some unit.
(** The temperatures asked for: from lo in steps until hi is reached or passed. *)
Definition stepped (lo hi step : R) (l : list R) : Prop :=
  (forall k, k < List.length l -> nth k l 0%R = (lo + INR k * step)%R) /\
  ((0 < step)%R -> forall k, k < List.length l <-> (lo + INR k * step < hi + step)%R) /\
  ((step < 0)%R -> forall k, k < List.length l <-> (hi + step < lo + INR k * step)%R).

(** ** Proofs *)
Lemma range_stepped lo hi step l : set_range (lo, hi, step) = Some l -> stepped lo hi step l.
Proof.
  intros E. assert (NZ : step <> 0%R) by (intros Z; apply (C43_zero_step lo hi step) in Z; congruence). split; [|split].
  - destruct (Rlt_le_dec 0 step) as [P|P].
    + intros k Hk. destruct (C43_points lo hi step l P E) as (_ & V). now rewrite V.
    + intros k Hk. destruct (C43_negative_step lo hi step l) as (_ & V); [lra|exact E|]. now rewrite V.
  - intros P k. apply (C43_points lo hi step l P E).
  - intros P k. apply (C43_negative_step lo hi step l P E).
Qed.
Lemma nth_mapped {A} (f : nat -> A) n k d : k < n -> nth k (map f (seq 0 n)) d = f k.
Proof. intros H. rewrite (nth_indep _ _ (f 0)) by (now rewrite map_length, seq_length). rewrite map_nth, seq_nth by exact H. reflexivity. Qed.
Lemma array_rows n m f : exists rows, array_of n m f = Mat rows /\ List.length rows = n /\
  forall i, i < n -> List.length (nth i rows []) = m /\ forall j, j < m -> nth j (nth i rows []) 0%R = f i j.
Proof.
  eexists. split; [reflexivity|]. split; [now rewrite map_length, seq_length|]. intros i Hi. rewrite nth_mapped by exact Hi.
  split; [now rewrite map_length, seq_length|]. intros j Hj. now rewrite nth_mapped.
Qed.
Lemma list_of_nth (l : list R) f : (forall k, k < List.length l -> f k = nth k l 0%R) -> map f (seq 0 (List.length l)) = l.
Proof.
  intros H. apply (nth_ext _ _ 0%R 0%R); [now rewrite map_length, seq_length|]. intros k Hk. rewrite map_length, seq_length in Hk.
  rewrite nth_mapped by exact Hk. now apply H.
Qed.

Lemma printing_ok l : printing (map QhaReaderModel.Ok l) = (say l, CliModel.Ok tt).
Proof. induction l as [|a l IH]; [reflexivity|]. cbn [map printing]. rewrite IH. reflexivity. Qed.
Lemma printing_stops l e r : printing (map QhaReaderModel.Ok l ++ QhaReaderModel.Raises e :: r) = (say l, CliModel.Raises e).
Proof. induction l as [|a l IH]; [reflexivity|]. cbn [map app printing]. rewrite IH. reflexivity. Qed.
Lemma page_concat ls : RunLogProps.page [concat_map (fun l => l +++ nl) ls] = RunLogProps.page (ls ++ [""]).
Proof.
  induction ls as [|a ls IH]; [reflexivity|]. cbn [app RunLogProps.page concat_map fold_right] in *. rewrite <- IH.
  unfold nl. rewrite <- !append_assoc. reflexivity.
Qed.
Lemma page_explode a b ls c : RunLogProps.page ([a; b; concat_map (fun l => l +++ nl) ls] ++ c) = RunLogProps.page ([a; b] ++ ls ++ [""] ++ c).
Proof.
  rewrite (RunLogProps.page_app [_; _; _]). change [a; b; concat_map (fun l => l +++ nl) ls] with ([a; b] ++ [concat_map (fun l => l +++ nl) ls]).
  rewrite (RunLogProps.page_app [a; b] [_]), page_concat. rewrite !RunLogProps.page_app, <- !append_assoc. reflexivity.
Qed.

Section Command.
Variable K : constants.
Variables hplanck kboltzmann : R.
Variable yaml_load : string -> QhaReaderModel.parsed.
Variable times : nat -> string.
Variable total_time : string.
Variable encode : result_file -> string.
Variable memory : string -> nat -> nat -> R.
Variable special_case : QhaReaderModel.yaml -> CliModel.method (option string) * string.
Variables (u : ha_options) (f : string) (o : option string) (silent d : bool) (a : CliModel.result bool) (w : CliModel.world).
Notation command := (CliModel.ha_command (print_settings u)).
Notation out := (CliModel.outpath command f o).
Notation lf := (CliModel.logpath out).
Notation run_command := (ha_main K hplanck kboltzmann yaml_load times total_time encode memory special_case u f o silent d a w).
Notation the_job := (ha_job K hplanck kboltzmann times total_time encode memory special_case u (ha_temperature u) out).
Notation reads := (ha_read K hplanck kboltzmann yaml_load times total_time encode memory special_case u f out).
Notation calculator := (ha_calculator K hplanck kboltzmann yaml_load times total_time encode memory special_case u f out).
Notation lo := (fst (fst (trange u))).
Notation hi := (snd (fst (trange u))).
Notation step := (snd (trange u)).
Notation s := (ha_settings u).
Hypothesis PK : positive_constants K.
Hypotheses (Hh : (0 < hplanck)%R) (Hk : (0 < kboltzmann)%R).

Lemma hears_say l : RunLogProps.voices d (say l) = l.
Proof. induction l as [|m l IH]; [reflexivity|]. change (RunLogProps.voices d (say (m :: l))) with (m :: RunLogProps.voices d (say l)). now rewrite IH. Qed.

(** Units which click accepts, a step which is not zero, an input which is a file,
    and a place to write to. *)
Record started (text : string) : Prop := {
  units_offered : In (eunit_o u) ["Ha"; "eV"; "Ry"] /\ In (vunit_o u) ["A"; "bohr"] /\ In (funit_o u) ["cm-1"; "THz"; "Hz"] /\ In (tunit_o u) ["K"; "C"];
  input_file : CliModel.fs w f = CliModel.File text;
  log_free : CliModel.fs w lf <> CliModel.Dir;
  log_not_input : lf <> f }.
Definition out_free : Prop := CliModel.fs w out = CliModel.Absent \/ CliModel.fs w out <> CliModel.Dir /\ a = CliModel.Ok true.
(** The block of lines stands in the log. *)
Definition logged (v : CliModel.world) (block : list string) : Prop :=
  exists messages, CliModel.fs v lf = CliModel.File (RunLogProps.page messages) /\ contains messages block.
Definition opening : list string := [""; CitationsModel.quantas_title] ++ settings_lines u ++ [""].
Definition told_reading : list string := ["Reading input file: " +++ f; ""].

Lemma offered_units text : started text -> QhaEqProps.offered s.
Proof.
  intros [(A & B & C & D) _ _ _]. unfold QhaEqProps.offered, ha_settings. cbn. repeat split; try assumption; [|tauto].
  destruct C as [<-|[<-|[<-|[]]]]; cbn; tauto.
Qed.
Lemma range_exists : step <> 0%R -> exists l, set_range (trange u) = Some l.
Proof.
  intros NZ. destruct (trange u) as [[l h] st] eqn:E. cbn in NZ. destruct (set_range (l, h, st)) eqn:R; [eauto|].
  apply (C43_zero_step l h st) in R. contradiction.
Qed.
Lemma reading_of y r text : QhaReaderModel.load (QhaReaderModel.Parsed y) = QhaReaderModel.Ok r -> QhaReaderModel.completed r = true ->
  QhaReaderModel.contents r = Some y -> yaml_load text = QhaReaderModel.Parsed y ->
  reads text = (say told_reading, CliModel.Ok (inr (the_job y))).
Proof.
  intros L C D Y. unfold ha_read, QhaReaderModel.ha_read_input. rewrite Y, L. cbn [QhaReaderModel.bind]. rewrite C. cbn [negb]. rewrite D. reflexivity.
Qed.

Section Read.
Variables (text : string) (y : QhaReaderModel.yaml) (name : string) (na nq : nat) (kp : Z) (vols ens : list R) (wt : nat -> R) (F : nat -> nat -> nat -> R).
Hypothesis ST : started text.
Hypothesis NZ : step <> 0%R.
Hypothesis YL : yaml_load text = QhaReaderModel.Parsed y.
Hypothesis RD : readable y name na nq kp vols ens wt F.
Definition heading : list string :=
  [""; "Job: " +++ name; ""; "System:"; item "Number of volumes" (int_text (Z.of_nat (List.length vols))); item "Number of atoms" (int_text (Z.of_nat na));
   item "Number of sampled k-points" (int_text kp); item "Number of frequencies" (int_text (Ztrunc (IZR (Z.of_nat na * 3) * QhaReaderProps.sum_to nq wt)));
   ""; "Volume and energy values:"; "";
   " " +++ center 15 ("Volume (" +++ QhaRunModel.vunit s +++ "^3)") +++ " " +++ center 30 ("Energy (" +++ QhaRunModel.eunit s +++ ")");
   " " +++ rule 15 +++ " " +++ rule 30].
Definition row (k : nat) : string := " " +++ centred 15 6 (Fin (nth k vols 0%R)) +++ " " +++ centred_e 30 12 (nth k ens 0%R).
Lemma rows_ok k : k < List.length vols -> k < List.length ens -> volume_row y k = QhaReaderModel.Ok (row k).
Proof.
  intros A B. unfold volume_row. rewrite (r_volume _ _ _ _ _ _ _ _ _ RD), (r_energy _ _ _ _ _ _ _ _ _ RD). cbn [QhaReaderModel.bind index].
  rewrite !nth_error_map, (nth_error_nth' _ 0%R A), (nth_error_nth' _ 0%R B). reflexivity.
Qed.
Lemma rows_missing k : k < List.length vols -> List.length ens <= k -> volume_row y k = QhaReaderModel.Raises "IndexError".
Proof.
  intros A B. unfold volume_row. rewrite (r_volume _ _ _ _ _ _ _ _ _ RD), (r_energy _ _ _ _ _ _ _ _ _ RD). cbn [QhaReaderModel.bind index].
  rewrite !nth_error_map, (nth_error_nth' _ 0%R A), (proj2 (nth_error_None ens k) B). reflexivity.
Qed.
Lemma report_shape : report_lines u y = map QhaReaderModel.Ok heading ++ map (volume_row y) (seq 0 (List.length vols)) ++ [QhaReaderModel.Ok ""].
Proof.
  unfold report_lines, report_rows. rewrite (r_name _ _ _ _ _ _ _ _ _ RD), (readable_nvol _ _ _ _ _ _ _ _ _ RD), (r_natoms _ _ _ _ _ _ _ _ _ RD),
    (r_kpoints _ _ _ _ _ _ _ _ _ RD), (readable_total _ _ _ _ _ _ _ _ _ RD). reflexivity.
Qed.
Lemma report_ok : List.length vols <= List.length ens -> printing (report_lines u y) = (say (heading ++ map row (seq 0 (List.length vols)) ++ [""]), CliModel.Ok tt).
Proof.
  intros L. rewrite report_shape. rewrite (map_ext_in (volume_row y) (fun k => QhaReaderModel.Ok (row k))).
  - rewrite <- (map_map row). change [QhaReaderModel.Ok ""] with (map (@QhaReaderModel.Ok string) [""]). rewrite <- !map_app. apply printing_ok.
  - intros k I. apply in_seq in I. apply rows_ok; lia.
Qed.
Lemma report_stops : List.length ens < List.length vols -> printing (report_lines u y) = (say (heading ++ map row (seq 0 (List.length ens))), CliModel.Raises "IndexError").
Proof.
  intros L. rewrite report_shape. replace (List.length vols) with (List.length ens + S (List.length vols - List.length ens - 1)) by lia.
  rewrite seq_app, map_app. cbn [seq map Nat.add]. rewrite rows_missing by lia.
  rewrite (map_ext_in (volume_row y) (fun k => QhaReaderModel.Ok (row k)) (seq 0 _)) by (intros k I; apply in_seq in I; apply rows_ok; lia).
  rewrite <- (map_map row), <- !app_assoc, app_assoc, <- map_app. cbn [app]. apply printing_stops.
Qed.
(** The report is the one of C88. *)
Lemma report_same x : same_input na nq vols ens wt F x -> List.length vols <= List.length ens ->
  heading ++ map row (seq 0 (List.length vols)) ++ [""] = report_input_ha s x {| job := name; natoms := Z.of_nat na; QhaReportModel.kpoints := kp |}.
Proof.
  intros (N & V & E & _ & _ & _ & _ & _ & T) L. unfold report_input_ha, system_lines, heading. rewrite N, T. cbn [job natoms QhaReportModel.kpoints app].
  rewrite (map_ext_in row (fun i => " " +++ centred 15 6 (Fin (QhaRunModel.volume x i)) +++ " " +++ centred_e 30 12 (QhaRunModel.static_energy x i)));
    [reflexivity|]. intros k I. apply in_seq in I. rewrite V, E by lia. reflexivity.
Qed.
Lemma results_exist : exists x r, ha_results K hplanck kboltzmann u (ha_temperature u) y = QhaReaderModel.Ok (Some (x, r)) /\ same_input na nq vols ens wt F x /\
  QhaRunModel.ha_run K hplanck kboltzmann s x (ha_temperature u) = QhaRunModel.Ok r.
Proof.
  destruct (readable_input _ _ _ _ _ _ _ _ _ RD) as (x & E & I).
  destruct (QhaEqProps.C73_harmonic_completes K hplanck kboltzmann PK s x (ha_temperature u) (offered_units _ ST)) as (r & R).
  exists x, r. unfold ha_results. rewrite E. cbn [QhaReaderModel.bind]. rewrite R. auto.
Qed.
Lemma new_ok : snd (ha_new u) = CliModel.Ok tt.
Proof. destruct (range_exists NZ) as (l & E). unfold ha_new. cbn [snd]. now rewrite E. Qed.
Lemma reads_text : reads text = (say told_reading, CliModel.Ok (inr (the_job y))).
Proof. destruct (readable_loads _ _ _ _ _ _ _ _ _ RD) as (r & L & C & D & _). now apply (reading_of y r). Qed.

Definition full_log : list string :=
  opening ++ told_reading ++ (heading ++ map row (seq 0 (List.length vols)) ++ [""]) ++ (start_lines ++ work_lines times total_time) ++
  ["Calculated data exported to " +++ out] ++ RunLogProps.references CitationsModel.ha_texts.
Lemma completes : List.length vols <= List.length ens -> out_free -> exists v x r, run_command = (CliModel.Ok tt, v) /\
  same_input na nq vols ens wt F x /\ QhaRunModel.ha_run K hplanck kboltzmann s x (ha_temperature u) = QhaRunModel.Ok r /\
  CliModel.fs v out = CliModel.File (encode (widened memory (ha_temperature u) ens x r (ha_result_file s name x (ha_temperature u) r))) /\
  CliModel.fs v lf = CliModel.File (RunLogProps.page full_log) /\ forall q, q <> lf -> q <> out -> CliModel.fs v q = CliModel.fs w q.
Proof.
  intros L O. destruct results_exist as (x & r & E & I & R). pose proof ST as [_ Fi Lo Ni].
  assert (RN : snd (ha_run K hplanck kboltzmann times total_time special_case u (ha_temperature u) y) = CliModel.Ok None) by (unfold ha_run; rewrite E; reflexivity).
  destruct (RunLogProps.C93_completed CitationsModel.ha_texts command f o silent d calculator a w text (the_job y)) as (v & M & S1 & S2 & S3).
  - left. reflexivity.
  - exact Fi.
  - exact Lo.
  - exact Ni.
  - exact new_ok.
  - cbn [CliModel.read_input ha_calculator]. now rewrite reads_text.
  - cbn [CliModel.report_input_data ha_job]. now rewrite report_ok.
  - exact RN.
  - intros X. discriminate X.
  - exact O.
  - exists v, x, r. split; [exact M|]. split; [exact I|]. split; [exact R|]. split.
    { rewrite S1. cbn [CliModel.saved ha_job]. unfold ha_saved. rewrite E, (r_name _ _ _ _ _ _ _ _ _ RD), (r_energy _ _ _ _ _ _ _ _ _ RD). cbn [items]. rewrite map_map.
      rewrite (map_ext (fun z => val (Num z)) (fun z => z)) by reflexivity. now rewrite map_id. }
    split; [|exact S3]. rewrite S2. f_equal. change (CliModel.settings command) with (concat_map (fun l => l +++ nl) (settings_lines u)). rewrite page_explode. f_equal.
    unfold full_log, opening. rewrite <- !app_assoc. do 3 f_equal.
    unfold RunLogProps.told_by. cbn [CliModel.reports CliModel.ha_command CliModel.new CliModel.read_input ha_calculator]. rewrite reads_text.
    cbn [CliModel.report_input_data CliModel.run CliModel.exported ha_job]. rewrite (report_ok L). unfold ha_run. rewrite E. cbn [fst ha_new].
    rewrite !hears_say. cbn [RunLogProps.voices map List.concat app]. rewrite <- !app_assoc. reflexivity.
Qed.
End Read.

(** ** What is stored *)
Lemma find_unit_m : "m" +++ QhaRunModel.eunit s = "m" +++ eunit_o u. Proof. reflexivity. Qed.
Lemma stored_tables name x r vols ens : QhaRunModel.nvol x = List.length vols -> List.length ens = List.length vols ->
  let nt := List.length (ha_temperature u) in let nv := List.length vols in
  (forall k, k < nv -> QhaRunModel.volume x k = nth k vols 0%R) ->
  let h := widened memory (ha_temperature u) ens x r (ha_result_file s name x (ha_temperature u) r) in
  about h = Some (ha_about s name) /\
  vector h "V" (vunit_o u) vols /\ vector h "T" (tunit_o u) (ha_temperature u) /\ vector h "U0" (eunit_o u) ens /\
  table h "Uzp" (eunit_o u) 1 nv (fun _ => QhaRunModel.ha_Uzp r) /\ table h "Uth" (eunit_o u) nt nv (QhaRunModel.ha_Uth r) /\
  table h "Utot" (eunit_o u) nt nv (QhaRunModel.ha_Utot r) /\ table h "S" ("m" +++ eunit_o u) nt nv (QhaRunModel.ha_S r) /\
  table h "Fvib" (eunit_o u) nt nv (QhaRunModel.ha_Fvib r) /\ table h "F" (eunit_o u) nt nv (QhaRunModel.ha_F r) /\
  table h "Cv" ("m" +++ eunit_o u) nt nv (QhaRunModel.ha_Cv r).
Proof.
  intros N L nt nv V h. subst nt nv.
  assert (TB : forall f0 n m name0 unit0 at0, TableModel.find name0 (named h) = Some {| content := array_of n m f0; attributes := at0 |} ->
    TableModel.find "unit" at0 = Some unit0 -> table h name0 unit0 n m f0).
  { intros f0 n m name0 unit0 at0 E U0. destruct (array_rows n m f0) as (rows & A & B). eexists _, rows. split; [exact E|]. cbn [content attributes]. auto. }
  split; [reflexivity|].
  split; [eexists; split; [reflexivity|]; split; [|reflexivity]; change (Vec (map (QhaRunModel.volume x) (seq 0 (QhaRunModel.nvol x))) = Vec vols); rewrite N; f_equal; now apply list_of_nth|].
  split; [eexists; split; [reflexivity|]; split; reflexivity|].
  split; [eexists; split; [reflexivity|]; split; reflexivity|].
  assert (WD : forall t name0, array_of (List.length (ha_temperature u)) (List.length ens) (fun i j => if j <? QhaRunModel.nvol x then t i j else (nth j ens 0 + memory name0 i j)%R) =
    array_of (List.length (ha_temperature u)) (List.length vols) t).
  { intros t name0. unfold array_of. f_equal. rewrite L, N. apply map_ext_in. intros i I. apply map_ext_in. intros j J. apply in_seq in J.
    destruct (Nat.ltb_spec j (List.length vols)); [reflexivity|lia]. }
  split; [rewrite <- N; eapply TB; reflexivity|]. split; [rewrite <- N; eapply TB; reflexivity|].
  split; [eapply TB; [rewrite <- (WD _ "Utot"); reflexivity|reflexivity]|].
  split; [rewrite <- N; eapply TB; reflexivity|]. split; [rewrite <- N; eapply TB; reflexivity|].
  split; [eapply TB; [rewrite <- (WD _ "F"); reflexivity|reflexivity]|].
  rewrite <- N; eapply TB; reflexivity.
Qed.

(** ** C95 *)
Notation ez := (QhaEqProps.oscillator_zero hplanck).
Notation eth := (QhaEqProps.oscillator_energy hplanck kboltzmann).
Notation es := (QhaEqProps.oscillator_entropy hplanck kboltzmann).
Notation ec := (QhaEqProps.oscillator_capacity hplanck kboltzmann).
(** The file holds the volumes, the static energies, the temperatures asked for,
    and at each of them and each volume the sums over the oscillators of the
    document; energies in the unit asked for, entropy and heat capacity in
    thousandths of it per kelvin. *)
Definition harmonic_values (temps : list R) (na given : nat) (ens : list R) (wt : nat -> R) (F : nat -> nat -> nat -> R) (nv : nat) (Uzp : nat -> R) (Uth Utot Sv Fvib Fr Cv : nat -> nat -> R) : Prop :=
  exists de df dt, meaning (energy_units K) (lower (eunit_o u)) = Some de /\
    meaning (frequency_units K) (lower (if String.eqb (funit_o u) "cm-1" then "cm^-1" else funit_o u)) = Some df /\
    meaning temperature_units (lower (tunit_o u)) = Some dt /\
  forall i j, i < List.length temps -> j < nv -> let T := si dt (nth i temps 0%R) in
    ((0 < T)%R ->
      (fst de * Uzp j = modes_mean na given wt F df j ez)%R /\ (fst de * Uth i j = modes_mean na given wt F df j (eth T))%R /\
      (fst de * Sv i j / 1000 = modes_mean na given wt F df j (es T))%R /\ (fst de * Cv i j / 1000 = modes_mean na given wt F df j (ec T))%R) /\
    ((0 <= T)%R ->
      (Utot i j = nth j ens 0 + Uzp j + Uth i j)%R /\ (Fvib i j = Uzp j + Uth i j - T * Sv i j / 1000)%R /\ (Fr i j = nth j ens 0 + Fvib i j)%R).
Definition harmonic_file (h : result_file) (na given : nat) (vols ens : list R) (wt : nat -> R) (F : nat -> nat -> nat -> R) : Prop :=
  let nv := List.length vols in
  documented h /\ vector h "V" (vunit_o u) vols /\ vector h "U0" (eunit_o u) ens /\
  exists temps, vector h "T" (tunit_o u) temps /\ stepped lo hi step temps /\
  exists Uzp Uth Utot Sv Fvib Fr Cv, let nt := List.length temps in
  table h "Uzp" (eunit_o u) 1 nv (fun _ => Uzp) /\ table h "Uth" (eunit_o u) nt nv Uth /\ table h "Utot" (eunit_o u) nt nv Utot /\
  table h "S" ("m" +++ eunit_o u) nt nv Sv /\ table h "Fvib" (eunit_o u) nt nv Fvib /\ table h "F" (eunit_o u) nt nv Fr /\ table h "Cv" ("m" +++ eunit_o u) nt nv Cv /\
  harmonic_values temps na given ens wt F nv Uzp Uth Utot Sv Fvib Fr Cv.
Lemma file_holds text name na nq vols ens wt F x r : started text -> step <> 0%R -> List.length ens = List.length vols ->
  same_input na nq vols ens wt F x -> QhaRunModel.ha_run K hplanck kboltzmann s x (ha_temperature u) = QhaRunModel.Ok r ->
  harmonic_file (widened memory (ha_temperature u) ens x r (ha_result_file s name x (ha_temperature u) r)) na nq vols ens wt F.
Proof.
  intros ST NZ L I E. pose proof I as (N & V & En & B & M & Nv & Fq & W & T).
  destruct (stored_tables name x r vols ens N L V) as (_ & A1 & A2 & A3 & A4 & A5 & A6 & A7 & A8 & A9 & A10).
  split.
  { split; [eexists; reflexivity|]. intros k d0 Hd. unfold widened in Hd. cbn [named] in Hd. apply in_map_iff in Hd as ((k0 & d1) & [= <- <-] & Hd). cbn [attributes fst snd].
    cbn [named ha_result_file In] in Hd. repeat (destruct Hd as [[= <- <-]|Hd]; [eexists; reflexivity|]). destruct Hd. }
  split; [exact A1|]. split; [exact A3|]. exists (ha_temperature u). split; [exact A2|]. split.
  { destruct (range_exists NZ) as (l & R). unfold ha_temperature. rewrite R. apply range_stepped. rewrite <- R. now destruct (trange u) as [[? ?] ?]. }
  do 7 eexists. split; [exact A4|]. split; [exact A5|]. split; [exact A6|]. split; [exact A7|]. split; [exact A8|]. split; [exact A9|]. split; [exact A10|].
  destruct (QhaEqProps.known_units K s (offered_units _ ST)) as ((de & Me) & _ & _ & _ & (df & Mf) & (dt & Mt) & _).
  exists de, df, dt. split; [exact Me|]. split; [exact Mf|]. split; [exact Mt|]. intros i j Hi Hj T0. split.
  - intros P. destruct (QhaEqProps.C71_values K hplanck kboltzmann PK Hh Hk s x (ha_temperature u) r dt de df) with (i := i) (j := j) as (Q1 & Q2 & Q3 & Q4);
      [congruence|exact E|exact Mt|exact Me|exact Mf|exact Hi|congruence|exact P|]. cbv zeta in Q1, Q2, Q3, Q4.
    assert (X : forall g, QhaEqProps.mean_over_modes s x df j g = modes_mean na nq wt F df j g).
    { intros g. unfold QhaEqProps.mean_over_modes, modes_mean. rewrite B, M, T, (sum_Rsum nq wt). apply Rsum_ext. intros q Hq. rewrite W by exact Hq. f_equal.
      apply Rsum_ext. intros b Hb. now rewrite Fq. }
    rewrite <- !X. auto.
  - intros P. destruct (QhaEqProps.C71_table K hplanck kboltzmann PK Hh Hk s x (ha_temperature u) r dt) with (i := i) (j := j) as (Q1 & Q2 & Q3 & Q4);
      [congruence|exact E|exact Mt|exact Hi|congruence|exact P|]. cbv zeta in Q1, Q2, Q3, Q4. rewrite <- En by lia. auto.
Qed.
Lemma harmonic_file_padded h na nq given vols ens wt F : given <= nq ->
  harmonic_file h na nq vols ens (padded given wt 0%R) (padded given F (fun _ _ => 0%R)) -> harmonic_file h na given vols ens wt F.
Proof.
  intros L (DO & A & B & temps & C & D & Uzp & Uth & Utot & Sv & Fvib & Fr & Cv & T1 & T2 & T3 & T4 & T5 & T6 & T7 & de & df & dt & Me & Mf & Mt & H).
  split; [exact DO|]. split; [exact A|]. split; [exact B|]. exists temps. split; [exact C|]. split; [exact D|]. exists Uzp, Uth, Utot, Sv, Fvib, Fr, Cv.
  do 7 (split; [assumption|]). exists de, df, dt. do 3 (split; [assumption|]). intros i j Hi Hj. specialize (H i j Hi Hj). cbv zeta in *. now rewrite !modes_padded in H by exact L.
Qed.

(** A document which describes a crystal is calculated and saved. *)
Theorem C95_saved text y name na nq given cell vols ens wt F : started text -> step <> 0%R -> out_free ->
  yaml_load text = QhaReaderModel.Parsed y -> describes y name na nq given cell vols ens wt F -> List.length ens = List.length vols ->
  exists v h, run_command = (CliModel.Ok tt, v) /\ CliModel.fs v out = CliModel.File (encode h) /\ harmonic_file h na given vols ens wt F /\
  forall q, q <> lf -> q <> out -> CliModel.fs v q = CliModel.fs w q.
Proof.
  intros ST NZ O Y D L. destruct cell as [[r1 r2] r3]. pose proof (described_readable _ _ _ _ _ _ _ _ _ _ _ _ D) as RD.
  destruct (completes _ _ _ _ _ _ _ _ _ _ ST NZ Y RD ltac:(lia) O) as (v & x & r & E & I & R & S1 & _ & S3).
  exists v. eexists. split; [exact E|]. split; [exact S1|]. split; [|exact S3].
  apply (harmonic_file_padded _ _ nq _ _ _ _ _ (said_enough _ _ _ _ _ _ _ _ _ _ D)). now apply (file_holds text).
Qed.
(** And its log tells the settings, what was read, and where the results are. *)
Theorem C95_log text y name na nq given r1 r2 r3 vols ens wt F : started text -> step <> 0%R -> out_free ->
  yaml_load text = QhaReaderModel.Parsed y -> describes y name na nq given (r1, r2, r3) vols ens wt F -> List.length ens = List.length vols ->
  let v := snd run_command in
  logged v ["Calculator: Harmonic Approximation"] /\
  (exists l1 l2 l3 rule, logged v ["Temperature settings"; rule; l1; l2; l3] /\
    says l1 [Word "-"; Word "min:"; Decimals 2 lo; Word (tunit_o u)] /\ says l2 [Word "-"; Word "max:"; Decimals 2 hi; Word (tunit_o u)] /\
    says l3 [Word "-"; Word "step:"; Decimals 2 step; Word (tunit_o u)]) /\
  (exists l1 l2 l3 l4 rule, logged v ["Measurement units"; rule; l1; l2; l3; l4] /\
    says l1 (map Word ["-"; "energy:"; eunit_o u]) /\ says l2 (map Word ["-"; "lenght:"; vunit_o u]) /\
    says l3 (map Word ["-"; "frequency:"; if String.eqb (funit_o u) "cm-1" then "cm^-1" else funit_o u]) /\ says l4 (map Word ["-"; "temperature:"; tunit_o u])) /\
  logged v ["Reading input file: " +++ f] /\ logged v ["Job: " +++ name] /\
  (exists ls, logged v ("System:" :: ls) /\ exists a b c d, ls = [a; b; c; d] /\
    says a [Word "-"; Word "Number"; Word "of"; Word "volumes"; ReportSpec.Whole (Z.of_nat (List.length vols))] /\
    says b [Word "-"; Word "Number"; Word "of"; Word "atoms"; ReportSpec.Whole (Z.of_nat na)] /\
    says c [Word "-"; Word "Number"; Word "of"; Word "sampled"; Word "k-points"; ReportSpec.Whole (ZnearestE (volume_ratio r1 r2 r3))] /\
    says d [Word "-"; Word "Number"; Word "of"; Word "frequencies"; ReportSpec.Whole (Ztrunc (3 * INR na * StatMechSpec.Rsum given wt))]) /\
  (exists ls, logged v ls /\ table_block (with_unit "Volume" (vunit_o u +++ "^3") ++ with_unit "Energy" (eunit_o u)) (List.length vols)
      (fun i cs => cs = [Decimals 6 (nth i vols 0%R); Digits 12 (nth i ens 0%R)]) ls) /\
  logged v ["Calculated data exported to " +++ out].
Proof.
  intros ST NZ O Y D L v. pose proof (described_readable _ _ _ _ _ _ _ _ _ _ _ _ D) as RD.
  destruct (completes _ _ _ _ _ _ _ _ _ _ ST NZ Y RD ltac:(lia) O) as (v0 & x & r & E & I & _ & _ & S2 & _). subst v. rewrite E. cbn [snd].
  pose proof ST as [(Ue & Uv & Uf & Ut) _ _ _].
  assert (P : forall b, contains (full_log name na nq (ZnearestE (volume_ratio r1 r2 r3)) vols ens (padded given wt 0%R)) b -> logged v0 b) by (intros b B; eexists; split; [exact S2|exact B]).
  assert (Wd : forall z l, In z l -> Forall (fun t => no_space t /\ t <> "" /\ t <> "|") l -> says z [Word z]).
  { intros z l Iz Fz. rewrite Forall_forall in Fz. destruct (Fz z Iz) as (A & B & C). now apply says_word. }
  assert (We : says (eunit_o u) [Word (eunit_o u)]) by (apply (Wd _ _ Ue); repeat constructor; (reflexivity || discriminate)).
  assert (Wv : says (vunit_o u) [Word (vunit_o u)]) by (apply (Wd _ _ Uv); repeat constructor; (reflexivity || discriminate)).
  assert (Wt : says (tunit_o u) [Word (tunit_o u)]) by (apply (Wd _ _ Ut); repeat constructor; (reflexivity || discriminate)).
  assert (Wf : says (if String.eqb (funit_o u) "cm-1" then "cm^-1" else funit_o u) [Word (if String.eqb (funit_o u) "cm-1" then "cm^-1" else funit_o u)]).
  { destruct Uf as [<-|[<-|[<-|[]]]]; apply says_word; (reflexivity || discriminate). }
  assert (SO : forall b, contains (settings_lines u) b -> logged v0 b).
  { intros b B. apply P. unfold full_log, opening. apply contains_left, contains_skip, contains_left. exact B. }
  assert (RL : forall label x0 un, no_space label -> label <> "" -> label <> "|" -> says un [Word un] -> says (range_line label x0 un) [Word "-"; Word label; Decimals 2 x0; Word un]).
  { intros label x0 un A B C U. unfold range_line. change (" - " +++ ?r) with (String " " ("-" +++ " " +++ r)). apply says_blank.
    eapply says_space'; [apply (says_word "-"); (reflexivity || discriminate)| |reflexivity].
    eapply says_space'; [apply says_pad_right, says_word; assumption| |reflexivity].
    eapply says_space'; [apply (says_right 8 2 (Fin x0)); lia|exact U|reflexivity]. }
  assert (UL : forall label un, no_space label -> label <> "" -> label <> "|" -> says un [Word un] -> says (unit_line label un) (map Word ["-"; label; un])).
  { intros label un A B C U. unfold unit_line. change (" - " +++ ?r) with (String " " ("-" +++ " " +++ r)). apply says_blank.
    eapply says_space'; [apply (says_word "-"); (reflexivity || discriminate)| |reflexivity].
    eapply says_space'; [apply says_pad_right, says_word; assumption|exact U|reflexivity]. }
  split; [apply SO; unfold settings_lines; destruct (trange u) as [[? ?] ?]; now eexists [_], _|].
  split.
  { exists (range_line "min:" lo (tunit_o u)), (range_line "max:" hi (tunit_o u)), (range_line "step:" step (tunit_o u)), "-------------------------------------".
    split; [apply SO; unfold settings_lines; destruct (trange u) as [[? ?] ?]; now eexists [_; _; _], _|].
    split; [|split]; apply RL; (reflexivity || discriminate || exact Wt). }
  split.
  { exists (unit_line "energy:" (eunit_o u)), (unit_line "lenght:" (vunit_o u)), (unit_line "frequency:" (if String.eqb (funit_o u) "cm-1" then "cm^-1" else funit_o u)), (unit_line "temperature:" (tunit_o u)), "-------------------------------------".
    split; [apply SO; unfold settings_lines; destruct (trange u) as [[tlo thi] tst]; now exists [""; "Calculator: Harmonic Approximation"; ""; "Temperature settings"; "-------------------------------------"; range_line "min:" tlo (tunit_o u); range_line "max:" thi (tunit_o u); range_line "step:" tst (tunit_o u); ""], []|].
    split; [|split; [|split]]; apply UL; (reflexivity || discriminate || assumption). }
  split; [apply P; unfold full_log, told_reading; apply contains_skip, contains_left; now eexists [], _|].
  assert (RP : forall b, contains (report_input_ha s x {| job := name; natoms := Z.of_nat na; QhaReportModel.kpoints := ZnearestE (volume_ratio r1 r2 r3) |}) b -> logged v0 b).
  { intros b B. apply P. unfold full_log. rewrite <- (report_same name na nq (ZnearestE (volume_ratio r1 r2 r3)) vols ens (padded given wt 0%R) _ x I) in B by lia. apply contains_skip, contains_skip, contains_left. exact B. }
  destruct (C88_harmonic s x {| job := name; natoms := Z.of_nat na; QhaReportModel.kpoints := ZnearestE (volume_ratio r1 r2 r3) |}) as (H1 & (ls & H2 & H3) & lt & H4 & H5).
  { unfold no_space. cbn. destruct Ue as [<-|[<-|[<-|[]]]]; reflexivity. }
  { unfold no_space. cbn. destruct Uv as [<-|[<-|[]]]; reflexivity. }
  split; [now apply RP|]. split.
  { exists ls. split; [now apply RP|]. destruct H3 as (la & lb & lc & ld & -> & A1 & A2 & A3 & A4). exists la, lb, lc, ld. split; [reflexivity|].
    destruct I as (N & _ & _ & _ & _ & _ & _ & _ & T). rewrite N in A1. cbn [natoms QhaReportModel.kpoints] in *. split; [exact A1|]. split; [exact A2|]. split; [exact A3|].
    rewrite T, (sum_padded given nq wt (said_enough _ _ _ _ _ _ _ _ _ _ D)) in A4. rewrite <- (sum_Rsum given wt).
    replace (3 * INR na * QhaReaderProps.sum_to given wt)%R with (IZR (Z.of_nat na * 3) * QhaReaderProps.sum_to given wt)%R; [exact A4|]. rewrite mult_IZR, <- INR_IZR_INZ. ring. }
  split.
  { exists lt. split; [now apply RP|]. destruct I as (N & V & En & _). destruct H5 as (head & bar & rows & -> & Hd & Rw). exists head, bar, rows. split; [reflexivity|]. split; [exact Hd|].
    rewrite N in Rw. clear - Rw V En L. assert (Q : forall k, In k (seq 0 (List.length vols)) -> k < List.length vols) by (intros k Hk; apply in_seq in Hk; lia).
    induction Rw as [|k l ks ls (cs & -> & A) Rw IH]; constructor; [|apply IH; intros k0 Hk0; apply Q; now right].
    eexists. split; [reflexivity|]. rewrite <- V, <- En; [exact A| |]; pose proof (Q k (or_introl eq_refl)); lia. }
  apply P. unfold full_log. do 4 apply contains_skip. now eexists [], _.
Qed.
(** A text which is not YAML, or has no volumes, energies or phonons, is refused:
    the reason ends the log, nothing else is written. *)
Lemma refused text err : started text -> step <> 0%R -> QhaReaderModel.ha_read_input (yaml_load text) = QhaReaderModel.Ok (Some err, None) ->
  exists v, run_command = (CliModel.Ok tt, v) /\ CliModel.fs v lf = CliModel.File (RunLogProps.page (opening ++ told_reading ++ [err])) /\
  forall q, q <> lf -> CliModel.fs v q = CliModel.fs w q.
Proof.
  intros [_ Fi Lo Ni] NZ E.
  assert (RT : reads text = (say told_reading, CliModel.Ok (inl err))) by (unfold ha_read; now rewrite E).
  destruct (RunLogProps.C93_refused CitationsModel.ha_texts command f o silent d calculator a w text err Fi Lo Ni (new_ok NZ)) as (v & M & S1 & S2).
  - cbn [CliModel.read_input ha_calculator]. now rewrite RT.
  - exists v. split; [exact M|]. split; [|exact S2]. rewrite S1. f_equal. cbn [CliModel.new CliModel.read_input ha_calculator]. rewrite RT.
    change (CliModel.settings command) with (concat_map (fun l => l +++ nl) (settings_lines u)). rewrite page_explode. f_equal. cbn [fst ha_new]. rewrite hears_say.
    unfold opening. rewrite <- !app_assoc. reflexivity.
Qed.
Theorem C95_refused text : started text -> step <> 0%R ->
  ((forall y, yaml_load text <> QhaReaderModel.Parsed y) ->
   exists v err, run_command = (CliModel.Ok tt, v) /\ CliModel.fs v lf = CliModel.File (RunLogProps.page (opening ++ told_reading ++ [err])) /\
   forall q, q <> lf -> CliModel.fs v q = CliModel.fs w q) /\
  (forall m, yaml_load text = QhaReaderModel.Parsed (QhaReaderModel.YMap m) -> (exists k, In k ["volume"; "energy"; "phonon"] /\ ~ In k (map fst m)) ->
   exists v err, run_command = (CliModel.Ok tt, v) /\ CliModel.fs v lf = CliModel.File (RunLogProps.page (opening ++ told_reading ++ [err])) /\ QhaReaderProps.first_missing m err /\
   forall q, q <> lf -> CliModel.fs v q = CliModel.fs w q).
Proof.
  intros ST NZ. split.
  - intros N. destruct (QhaReaderProps.C41_parse_failure _ N) as (err & _ & E). destruct (refused text err ST NZ E) as (v & A & B & C). exists v, err. auto.
  - intros m Y N. destruct (QhaReaderProps.C41_missing_section_reported m N) as (err & _ & E & Fm). rewrite <- Y in E. destruct (refused text err ST NZ E) as (v & A & B & C). exists v, err. auto.
Qed.
(** An empty document is not refused: the command ends with an AttributeError. *)
Lemma report_fails text y lines e : started text -> step <> 0%R -> reads text = (say told_reading, CliModel.Ok (inr y)) -> CliModel.report_input_data y = (say lines, CliModel.Raises e) ->
  exists v, run_command = (CliModel.Raises e, v) /\ CliModel.fs v lf = CliModel.File (RunLogProps.page (opening ++ told_reading ++ lines)) /\
  forall q, q <> lf -> CliModel.fs v q = CliModel.fs w q.
Proof.
  intros [_ Fi Lo Ni] NZ RT RP.
  destruct (RunLogProps.C93_report_raises CitationsModel.ha_texts command f o silent d calculator a w text y e Fi Lo Ni (new_ok NZ)) as (v & M & S1 & S2).
  - cbn [CliModel.read_input ha_calculator]. now rewrite RT.
  - now rewrite RP.
  - exists v. split; [exact M|]. split; [|exact S2]. rewrite S1. f_equal. cbn [CliModel.new CliModel.read_input ha_calculator]. rewrite RT, RP.
    change (CliModel.settings command) with (concat_map (fun l => l +++ nl) (settings_lines u)). rewrite page_explode. f_equal. cbn [fst ha_new]. rewrite !hears_say.
    unfold opening. rewrite <- !app_assoc. reflexivity.
Qed.
Theorem C95_empty_document_refuted text : started text -> step <> 0%R -> yaml_load text = QhaReaderModel.Parsed QhaReaderModel.YNull ->
  exists v, run_command = (CliModel.Raises "AttributeError", v) /\ CliModel.fs v lf = CliModel.File (RunLogProps.page (opening ++ told_reading)) /\
  forall q, q <> lf -> CliModel.fs v q = CliModel.fs w q.
Proof.
  intros ST NZ Y. destruct (report_fails text no_input [] "AttributeError" ST NZ) as (v & A & B & C); [unfold ha_read; now rewrite Y|reflexivity|].
  rewrite app_nil_r in B. exists v. auto.
Qed.
(** A step of zero: ZeroDivisionError after the settings were printed, with no message. *)
Theorem C95_zero_step_refuted text : started text -> step = 0%R ->
  exists v, run_command = (CliModel.Raises "ZeroDivisionError", v) /\ CliModel.fs v lf = CliModel.File (RunLogProps.page opening) /\
  forall q, q <> lf -> CliModel.fs v q = CliModel.fs w q.
Proof.
  intros [_ Fi Lo Ni] Z.
  destruct (RunLogProps.C93_not_started CitationsModel.ha_texts command f o silent d calculator a w text "ZeroDivisionError" Fi Lo Ni) as (v & M & S1 & S2).
  - cbn [CliModel.new ha_calculator]. unfold ha_new. cbn [snd]. destruct (trange u) as [[l h] st]. cbn in Z. rewrite (proj2 (C43_zero_step l h st) Z). reflexivity.
  - exists v. split; [exact M|]. split; [|exact S2]. rewrite S1. f_equal.
    change (CliModel.settings command) with (concat_map (fun l => l +++ nl) (settings_lines u)). rewrite page_explode. reflexivity.
Qed.
(** Fewer energies than volumes are not refused: IndexError in the table. *)
Theorem C95_few_energies_refuted text y name na nq given r1 r2 r3 vols ens wt F : started text -> step <> 0%R ->
  yaml_load text = QhaReaderModel.Parsed y -> describes y name na nq given (r1, r2, r3) vols ens wt F -> List.length ens < List.length vols ->
  exists v, run_command = (CliModel.Raises "IndexError", v) /\ logged v ["Job: " +++ name] /\ forall q, q <> lf -> CliModel.fs v q = CliModel.fs w q.
Proof.
  intros ST NZ Y D L. pose proof (described_readable _ _ _ _ _ _ _ _ _ _ _ _ D) as RD.
  edestruct (report_fails text (the_job y)) as (v & A & B & C); [exact ST|exact NZ|exact (reads_text _ _ _ _ _ _ _ _ _ _ Y RD)|exact (report_stops _ _ _ _ _ _ _ _ _ RD L)|].
  exists v. split; [exact A|]. split; [|exact C]. eexists. split; [exact B|]. do 2 apply contains_skip. apply contains_left. now eexists [_], _.
Qed.
(** Nor is a single number as volume. *)
Theorem C95_scalar_volume_refuted text y m name na kp t x : started text -> step <> 0%R ->
  yaml_load text = QhaReaderModel.Parsed y -> y = QhaReaderModel.YMap m -> (forall k, In k ["volume"; "energy"; "phonon"] -> In k (map fst m)) ->
  QhaReaderModel.jobname y = QhaReaderModel.Ok name -> QhaReaderModel.natoms y = QhaReaderModel.Ok na -> kpoints y = QhaReaderModel.Ok kp ->
  QhaReaderModel.total_q_points y = QhaReaderModel.Ok (Num t) -> QhaReaderModel.volume y = QhaReaderModel.Ok (QhaReaderModel.Scalar x) ->
  exists v, run_command = (CliModel.Raises "IndexError", v) /\ logged v ["Job: " +++ name] /\ forall q, q <> lf -> CliModel.fs v q = CliModel.fs w q.
Proof.
  intros ST NZ Y Em Pm J N Kp T V.
  destruct (QhaReaderProps.C41_mapping m) as (r & Lr & Ir & Cr & _). rewrite <- Em in Lr, Ir.
  pose proof (reading_of y r text Lr (proj2 Cr Pm) Ir Y) as RT.
  edestruct (report_fails text (the_job y)) as (v & A & B & C); [exact ST|exact NZ|exact RT| |].
  { cbn [CliModel.report_input_data ha_job]. unfold report_lines, report_rows, QhaReaderModel.nvol. rewrite J, N, Kp, T, V. cbn [QhaReaderModel.bind seq map app]. unfold volume_row. rewrite V. cbn [QhaReaderModel.bind index].
    match goal with |- printing [QhaReaderModel.Ok ?x1; QhaReaderModel.Ok ?x2; QhaReaderModel.Ok ?x3; QhaReaderModel.Ok ?x4; QhaReaderModel.Ok ?x5; QhaReaderModel.Ok ?x6; QhaReaderModel.Ok ?x7; QhaReaderModel.Ok ?x8;
      QhaReaderModel.Ok ?x9; QhaReaderModel.Ok ?x10; QhaReaderModel.Ok ?x11; QhaReaderModel.Ok ?x12; QhaReaderModel.Ok ?x13; QhaReaderModel.Raises ?e; ?z] = _ =>
      exact (printing_stops [x1; x2; x3; x4; x5; x6; x7; x8; x9; x10; x11; x12; x13] e [z]) end. }
  exists v. split; [exact A|]. split; [|exact C]. eexists. split; [exact B|]. do 2 apply contains_skip. now eexists [_], _.
Qed.
(** More q-points than announced: IndexError. *)
Theorem C95_too_many_qpoints_refuted text y m name na nq nv given kp F W : started text -> step <> 0%R ->
  yaml_load text = QhaReaderModel.Parsed y -> y = QhaReaderModel.YMap m -> (forall k, In k ["volume"; "energy"; "phonon"] -> In k (map fst m)) ->
  QhaReaderModel.jobname y = QhaReaderModel.Ok name -> kpoints y = QhaReaderModel.Ok kp -> QhaReaderProps.document y nq na nv given F W -> nq < given ->
  exists v, run_command = (CliModel.Raises "IndexError", v) /\ logged v ["Job: " +++ name] /\ forall q, q <> lf -> CliModel.fs v q = CliModel.fs w q.
Proof.
  intros ST NZ Y Em Pm J Kp D G.
  destruct (QhaReaderProps.C41_mapping m) as (r & Lr & Ir & Cr & _). rewrite <- Em in Lr, Ir.
  pose proof (reading_of y r text Lr (proj2 Cr Pm) Ir Y) as RT. destruct (too_many_weights _ _ _ _ _ _ _ D G) as (_ & T).
  destruct D as (Q & N & (l & V & Ll) & _).
  assert (N' : QhaReaderModel.natoms y = QhaReaderModel.Ok na) by (unfold QhaReaderModel.natoms; rewrite N; cbn [QhaReaderModel.bind]; apply QhaReaderProps.get_int_nat).
  edestruct (report_fails text (the_job y)) as (v & A & B & C); [exact ST|exact NZ|exact RT| |].
  { cbn [CliModel.report_input_data ha_job]. unfold report_lines, QhaReaderModel.nvol. rewrite J, N', Kp, T, V. cbn [QhaReaderModel.bind app].
    match goal with |- printing (QhaReaderModel.Ok ?x1 :: QhaReaderModel.Ok ?x2 :: QhaReaderModel.Ok ?x3 :: QhaReaderModel.Ok ?x4 :: QhaReaderModel.Ok ?x5 :: QhaReaderModel.Ok ?x6 :: QhaReaderModel.Ok ?x7 ::
      QhaReaderModel.Raises ?e :: ?z) = _ => exact (printing_stops [x1; x2; x3; x4; x5; x6; x7] e z) end. }
  exists v. split; [exact A|]. split; [|exact C]. eexists. split; [exact B|]. do 2 apply contains_skip. now eexists [_], _.
Qed.
(** More energies than volumes: the run completes, and the tables of Utot and F
    have columns made of what happened to be in memory. *)
Theorem C95_surplus_energies_refuted text y name na nq given r1 r2 r3 vols ens wt F : started text -> step <> 0%R -> out_free ->
  yaml_load text = QhaReaderModel.Parsed y -> describes y name na nq given (r1, r2, r3) vols ens wt F -> List.length vols < List.length ens ->
  exists v h Utot Fr temps, run_command = (CliModel.Ok tt, v) /\ CliModel.fs v out = CliModel.File (encode h) /\ vector h "V" (vunit_o u) vols /\ vector h "U0" (eunit_o u) ens /\
  vector h "T" (tunit_o u) temps /\ stepped lo hi step temps /\
  table h "Utot" (eunit_o u) (List.length temps) (List.length ens) Utot /\ table h "F" (eunit_o u) (List.length temps) (List.length ens) Fr /\
  forall i j, List.length vols <= j -> Utot i j = (nth j ens 0 + memory "Utot" i j)%R /\ Fr i j = (nth j ens 0 + memory "F" i j)%R.
Proof.
  intros ST NZ O Y D L. pose proof (described_readable _ _ _ _ _ _ _ _ _ _ _ _ D) as RD.
  destruct (completes _ _ _ _ _ _ _ _ _ _ ST NZ Y RD ltac:(lia) O) as (v & x & r & E & I & _ & S1 & _).
  destruct I as (N & V & _). exists v. eexists.
  exists (fun i j => if j <? QhaRunModel.nvol x then QhaRunModel.ha_Utot r i j else (nth j ens 0 + memory "Utot" i j)%R),
         (fun i j => if j <? QhaRunModel.nvol x then QhaRunModel.ha_F r i j else (nth j ens 0 + memory "F" i j)%R), (ha_temperature u).
  split; [exact E|]. split; [exact S1|].
  split; [eexists; split; [reflexivity|]; split; [|reflexivity]; change (Vec (map (QhaRunModel.volume x) (seq 0 (QhaRunModel.nvol x))) = Vec vols); rewrite N; f_equal; now apply list_of_nth|].
  split; [eexists; split; [reflexivity|]; split; reflexivity|].
  split; [eexists; split; [reflexivity|]; split; reflexivity|].
  split.
  { destruct (range_exists NZ) as (l & R). unfold ha_temperature. rewrite R. apply range_stepped. rewrite <- R. now destruct (trange u) as [[? ?] ?]. }
  split; [|split].
  - edestruct array_rows as (rows & A & B). eexists _, rows. split; [reflexivity|]. split; [exact A|]. split; [reflexivity|exact B].
  - edestruct array_rows as (rows & A & B). eexists _, rows. split; [reflexivity|]. split; [exact A|]. split; [reflexivity|exact B].
  - intros i j Hj. rewrite N. destruct (Nat.ltb_spec j (List.length vols)); [lia|]. auto.
Qed.
(** From a set of phonon outputs, through quantas inpgen (C60), to the stored
    results, with any YAML parser which agrees with YamlSpec: the values used are
    those of the outputs within half a unit of the last digit written. *)
Theorem C95_from_outputs all job ref r na ls : (forall t y, YamlSpec.yaml_of t = Some y -> yaml_load t = QhaReaderModel.Parsed y) ->
  QhaWriterModel.py_item all ref = QhaReaderModel.Ok r -> QhaWriterProofs.plain job ->
  QhaWriterModel.natom r = Z.of_nat na -> QhaWriterModel.nphonon r = na * 3 -> 0 < na -> 0 < QhaWriterModel.qpoints r ->
  QhaWriterModel.qpoints r <= List.length (QhaWriterModel.qcoords r) -> QhaWriterModel.qpoints r <= List.length (QhaWriterModel.weights r) ->
  Forall (QhaWriterProps.covers (QhaWriterModel.qpoints r) (QhaWriterModel.nphonon r)) all ->
  let wt i := IZR (Ztrunc (nth i (QhaWriterModel.weights r) 0%R)) in
  QhaReaderProps.sum_to (QhaWriterModel.qpoints r) wt <> 0%R ->
  QhaWriterModel.multiple_lines all job ref = QhaReaderModel.Ok ls -> started (join_lines ls) -> step <> 0%R -> out_free ->
  exists v h vols ens F, run_command = (CliModel.Ok tt, v) /\ CliModel.fs v out = CliModel.File (encode h) /\ harmonic_file h na (QhaWriterModel.qpoints r) vols ens wt F /\
  Forall2 (rounded 8) (map QhaWriterModel.volume all) vols /\ Forall2 (rounded_sig 12) (map QhaWriterModel.energy all) ens /\
  (forall q b k d, q < QhaWriterModel.qpoints r -> b < na * 3 -> nth_error all k = Some d -> rounded 10 (QhaWriterProps.frequency d q b) (F q b k)) /\
  logged v ["Job: " +++ strip job].
Proof.
  intros YL E J Na Nm P Q Lq Lw C wt Z Ls ST NZ O.
  destruct (QhaWriterProps.C60_roundtrip all job ref r na E J Na Nm P Q Lq Lw C) as (ls' & y & Ls' & Yo & Jn & RB).
  rewrite Ls in Ls'. injection Ls' as <-. destruct (QhaWriterModel.dim r) as [[d1 d2] d3].
  destruct (written_readable _ _ _ _ _ _ _ _ _ _ _ Jn RB Z) as (v' & e' & F & RD & Rv & Re & Rf).
  assert (L : List.length e' = List.length v') by (rewrite <- (both_lengths _ _ _ Rv), <- (both_lengths _ _ _ Re), !map_length; reflexivity).
  destruct (completes _ _ _ _ _ _ _ _ _ _ ST NZ (YL _ _ Yo) RD ltac:(lia) O) as (v & x & rr & Ev & I & R & S1 & S2 & _).
  exists v. eexists. exists v', e', F. split; [exact Ev|]. split; [exact S1|]. split; [now apply (file_holds _ _ _ _ _ _ _ _ _ _ ST NZ L I R)|].
  split; [exact Rv|]. split; [exact Re|]. split.
  - intros q b k d0 Hq Hb Hd. destruct (QhaWriterProps.C60_own_values all q b k d0 Hd) as (X & _). rewrite <- X. apply Rf; try assumption.
    rewrite map_length. apply nth_error_Some. congruence.
  - eexists. split; [exact S2|]. unfold full_log. do 2 apply contains_skip. apply contains_left. now eexists [_], _.
Qed.
End Command.

(** ** A document with two volumes, one of two announced q-points, and its run *)
Definition sample (ens : list QhaReaderModel.yaml) : QhaReaderModel.yaml := QhaReaderModel.YMap
  [("job", QhaReaderModel.YStr "MgO "); ("natom", QhaReaderModel.YInt 1); ("qpoints", QhaReaderModel.YInt 2);
   ("supercell", QhaReaderModel.YList [QhaReaderModel.YList [QhaReaderModel.YInt 2; QhaReaderModel.YInt 0; QhaReaderModel.YInt 0];
     QhaReaderModel.YList [QhaReaderModel.YInt 0; QhaReaderModel.YInt 1; QhaReaderModel.YInt 0]; QhaReaderModel.YList [QhaReaderModel.YInt 0; QhaReaderModel.YInt 0; QhaReaderModel.YInt 1]]);
   ("volume", QhaReaderModel.YList [QhaReaderModel.YNum 18; QhaReaderModel.YNum 19]); ("energy", QhaReaderModel.YList ens);
   ("phonon", QhaReaderModel.YList [QhaReaderModel.YMap [("weight", QhaReaderModel.YInt 3); ("band", QhaReaderModel.YList
      [QhaReaderModel.YMap [("frequency", QhaReaderModel.YList [QhaReaderModel.YInt 0; QhaReaderModel.YInt 0])];
       QhaReaderModel.YMap [("frequency", QhaReaderModel.YList [QhaReaderModel.YInt 100; QhaReaderModel.YInt 90])];
       QhaReaderModel.YMap [("frequency", QhaReaderModel.YList [QhaReaderModel.YInt 300; QhaReaderModel.YInt 280])]])]])].
Definition sample_F : nat -> nat -> nat -> R := fun _ j k => nth k (nth j [[0; 0]; [100; 90]; [300; 280]]%R []) 0%R.
Lemma sample_described ens : describes (sample (map QhaReaderModel.YNum ens)) "MgO" 1 2 1 ((2, 0, 0), (0, 1, 0), (0, 0, 1))%R [18; 19]%R ens (fun _ => 3%R) sample_F.
Proof.
  split.
  - reflexivity.
  - split; [reflexivity|]. split; [reflexivity|]. split; [eexists; split; reflexivity|].
    eexists. split; [reflexivity|]. split; [reflexivity|]. intros [|i] q E; [|destruct i; discriminate]. injection E as <-.
    eexists. eexists. split; [reflexivity|]. split; [reflexivity|]. split; [|split; reflexivity].
    intros [|[|[|j]]] b E; try (destruct j; discriminate); injection E as <-; eexists; eexists;
    (split; [reflexivity|]; split; [reflexivity|]; split; [reflexivity|]); intros [|[|k]] Hk; try (cbn in Hk; lia); reflexivity.
  - lia.
  - reflexivity.
  - change (QhaReaderModel.get_float (QhaReaderModel.YList (map QhaReaderModel.YNum ens)) = QhaReaderModel.Ok (QhaReaderModel.Array (map Num ens))). unfold QhaReaderModel.get_float.
    assert (E : QhaReaderModel.all_some (map QhaReaderModel.element (map QhaReaderModel.YNum ens)) = Some (map Num ens)); [|now rewrite E].
    induction ens as [|e ens IH]; [reflexivity|]. cbn [map QhaReaderModel.all_some QhaReaderModel.element]. now rewrite IH.
  - eexists _, _, _. split; [reflexivity|]. repeat split; eexists _, _, _; (split; [reflexivity|repeat split]).
  - cbn. lra.
Qed.
Definition sample_options : ha_options := {| trange := (300, 400, 50)%R; eunit_o := "eV"; vunit_o := "A"; funit_o := "cm-1"; tunit_o := "K" |}.
Definition sample_disk (text : string) : CliModel.world :=
  {| CliModel.fs := fun q => if String.eqb q "run/MgO.yaml" then CliModel.File text else CliModel.Absent; CliModel.screen := [] |}.
Lemma sample_started text : started sample_options "run/MgO.yaml" None (sample_disk text) text.
Proof. split; [cbn; tauto|reflexivity|discriminate|discriminate]. Qed.
Definition sample_run (y : QhaReaderModel.yaml) (u : ha_options) :=
  ha_main codata 1 1 (fun _ => QhaReaderModel.Parsed y) (fun _ => "    0.01") "  0.06" (fun h => "h5") (fun _ _ _ => 7%R)
    (fun _ => (([], CliModel.Raises ""), "")) u "run/MgO.yaml" None true false (CliModel.Ok false) (sample_disk "text").
Example C95_instance :
  (exists v, sample_run (sample (map QhaReaderModel.YNum [-1; -2]%R)) sample_options = (CliModel.Ok tt, v) /\ CliModel.fs v "run/MgO_HA.hdf5" = CliModel.File "h5" /\
     logged sample_options "run/MgO.yaml" None v ["Job: MgO"]) /\
  fst (sample_run (sample (map QhaReaderModel.YNum [-1]%R)) sample_options) = CliModel.Raises "IndexError" /\
  fst (sample_run (sample (map QhaReaderModel.YNum [-1; -2; -3]%R)) sample_options) = CliModel.Ok tt /\
  fst (sample_run QhaReaderModel.YNull sample_options) = CliModel.Raises "AttributeError".
Proof.
  assert (H1 : (0 < 1)%R) by lra. assert (NZ : snd (trange sample_options) <> 0%R) by (cbn; lra). assert (ST : started sample_options "run/MgO.yaml" None (sample_disk "text") "text") by apply sample_started.
  assert (O : out_free sample_options "run/MgO.yaml" None (CliModel.Ok false) (sample_disk "text")) by (left; reflexivity).
  split; [|split; [|split]].
  - edestruct C95_saved with (yaml_load := fun _ : string => QhaReaderModel.Parsed (sample (map QhaReaderModel.YNum [-1; -2]%R))) as (v & h & E & S1 & _); [exact codata_positive|exact H1|exact H1|exact ST|exact NZ|exact O|reflexivity|apply (sample_described [-1; -2]%R)|reflexivity|].
    exists v. split; [exact E|]. split; [exact S1|].
    pose proof (C95_log codata 1 1 (fun _ => QhaReaderModel.Parsed (sample (map QhaReaderModel.YNum [-1; -2]%R))) (fun _ => "    0.01") "  0.06" (fun h => "h5") (fun _ _ _ => 7%R)
      (fun _ => (([], CliModel.Raises ""), "")) sample_options "run/MgO.yaml" None true false (CliModel.Ok false) (sample_disk "text") codata_positive _ _ _ _ _ _ _ _ _ _ _ _ _
      ST NZ O eq_refl (sample_described [-1; -2]%R) eq_refl) as (_ & _ & _ & _ & X & _). unfold sample_run in E. rewrite E in X. exact X.
  - edestruct C95_few_energies_refuted with (yaml_load := fun _ : string => QhaReaderModel.Parsed (sample (map QhaReaderModel.YNum [-1]%R))) as (v & E & _); [exact ST|exact NZ|reflexivity|apply (sample_described [-1]%R)|cbn; lia|]. unfold sample_run. now rewrite E.
  - edestruct C95_surplus_energies_refuted with (yaml_load := fun _ : string => QhaReaderModel.Parsed (sample (map QhaReaderModel.YNum [-1; -2; -3]%R))) as (v & h & x & z & ts & E & _); [exact codata_positive|exact ST|exact NZ|exact O|reflexivity|apply (sample_described [-1; -2; -3]%R)|cbn; lia|]. unfold sample_run. now rewrite E.
  - edestruct C95_empty_document_refuted with (yaml_load := fun _ : string => QhaReaderModel.Parsed QhaReaderModel.YNull) as (v & E & _); [exact ST|exact NZ|reflexivity|]. unfold sample_run. now rewrite E.
Qed.
(** The same with one number as volume, and with one q-point where none is announced. *)
Definition changed (key : string) (v : QhaReaderModel.yaml) : QhaReaderModel.yaml :=
  match sample (map QhaReaderModel.YNum [-1; -2]%R) with
  | QhaReaderModel.YMap m => QhaReaderModel.YMap (map (fun e => if String.eqb (fst e) key then (key, v) else e) m)
  | y => y
  end.
Example C95_instance_refuted :
  fst (sample_run (changed "volume" (QhaReaderModel.YNum 18)) sample_options) = CliModel.Raises "IndexError" /\
  fst (sample_run (changed "qpoints" (QhaReaderModel.YInt 0)) sample_options) = CliModel.Raises "IndexError".
Proof.
  assert (NZ : snd (trange sample_options) <> 0%R) by (cbn; lra). assert (ST : started sample_options "run/MgO.yaml" None (sample_disk "text") "text") by apply sample_started.
  assert (KP : forall key v, key <> "supercell" -> kpoints (changed key v) = QhaReaderModel.Ok (ZnearestE (det3 (2, 0, 0) (0, 1, 0) (0, 0, 1)))%R).
  { intros key v N. assert (G : QhaReaderModel.get "supercell" (changed key v) = QhaReaderModel.get "supercell" (sample [])).
    { unfold changed, sample. cbn [map fst]. destruct (String.eqb_spec "job" key) as [<-|]; [reflexivity|]. destruct (String.eqb_spec "natom" key) as [<-|]; [reflexivity|].
      destruct (String.eqb_spec "qpoints" key) as [<-|]; [reflexivity|]. destruct (String.eqb_spec "supercell" key) as [<-|]; [contradiction|]. reflexivity. }
    unfold kpoints. rewrite G. reflexivity. }
  split.
  - edestruct C95_scalar_volume_refuted with (yaml_load := fun _ : string => QhaReaderModel.Parsed (changed "volume" (QhaReaderModel.YNum 18))) as (v & E & _);
      [exact ST|exact NZ|reflexivity|reflexivity| |reflexivity|reflexivity|apply KP; discriminate| |reflexivity|unfold sample_run; now rewrite E].
    + cbn. tauto.
    + unfold QhaReaderModel.total_q_points. cbn. reflexivity.
  - edestruct C95_too_many_qpoints_refuted with (yaml_load := fun _ : string => QhaReaderModel.Parsed (changed "qpoints" (QhaReaderModel.YInt 0))) (na := 1) (nq := 0) (nv := 2) (given := 1) (F := fun i j k => Num (sample_F i j k)) (W := fun _ : nat => Num 3) as (v & E & _);
      [exact ST|exact NZ|reflexivity|reflexivity| |reflexivity|apply KP; discriminate| |apply Nat.lt_0_1|unfold sample_run; now rewrite E].
    + cbn. tauto.
    + pose proof (sample_described [-1; -2]%R) as [_ (_ & _ & V & qs & P & L & H) _ _ _ _ _]. split; [reflexivity|]. split; [reflexivity|]. split; [exact V|]. exists qs. split; [exact P|]. split; [exact L|exact H].
Qed.

Print Assumptions C95_saved.
Print Assumptions C95_log.
Print Assumptions C95_refused.
Print Assumptions C95_empty_document_refuted.
Print Assumptions C95_zero_step_refuted.
Print Assumptions C95_few_energies_refuted.
Print Assumptions C95_scalar_volume_refuted.
Print Assumptions C95_too_many_qpoints_refuted.
Print Assumptions C95_surplus_energies_refuted.
Print Assumptions C95_from_outputs.
