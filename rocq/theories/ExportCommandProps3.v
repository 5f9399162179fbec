(** C98: files kept, refusals, and tables exported from the file of a calculation. *)
From Coq Require Import Reals String Ascii List Bool Arith ZArith Lia Lra Permutation.
From Verif Require QhaReaderModel QhaRunModel CliModel CliProps CitationsModel EosFitModel HaCommandModel QhaCommandModel QhaCommandProps QhaCommandProps2 QhaCommandProps3 PhononInputProps.
From Verif Require Import Py DecimalModel DecimalProofs FormatModel FormatProofs YamlSpec UnitsModel UnitsSpec UnitsProps TableModel TableProofs TableProps StoreModel SoecTableModel ReportModel H5Model H5Props HaCommandProps
  ExportCommandModel ExportCommandProps ExportCommandProps2.
Import ListNotations.
Open Scope string_scope.
Open Scope list_scope.
Open Scope nat_scope.

(** * Files which are kept *)
Lemma changes_kept texts h f typed now saved later : changes texts h f typed now saved later -> forall q, now q <> CliModel.Absent -> later q <> now q ->
  (exists sel, q = offered f sel /\ agreed typed sel) \/ exists sel, renamed typed sel q.
Proof.
  induction 1 as [now|now sel file more later I P C IH]; intros q A N; [contradiction|]. destruct (String.eqb_spec q file) as [->|D].
  - destruct P as [(_ & P & _)|[(-> & _ & P)|(_ & _ & P)]]; [contradiction|left; eauto|right; eauto].
  - assert (U : CliModel.update now file (CliModel.File (texts sel)) q = now q) by (unfold CliModel.update; apply String.eqb_neq in D; now rewrite D). apply IH; rewrite U; assumption.
Qed.
Lemma changes_new texts h f typed now saved later : changes texts h f typed now saved later -> forall q, later q <> now q ->
  (exists sel, In sel (map fst (named h)) /\ later q = CliModel.File (texts sel)) /\ ((exists sel, q = offered f sel /\ In sel typed) \/ exists sel, renamed typed sel q).
Proof.
  assert (dec : forall m n : CliModel.node, {m = n} + {m <> n}) by (decide equality; apply string_dec).
  induction 1 as [now|now sel file more later I P C IH]; intros q N; [contradiction|].
  destruct (dec (later q) (CliModel.update now file (CliModel.File (texts sel)) q)) as [E|D]; [|exact (IH q D)]. unfold CliModel.update in E. destruct (String.eqb_spec q file) as [->|]; [|contradiction].
  split; [eauto|]. destruct P as [(-> & _ & P)|[(-> & _ & (a & junk & y & b & -> & _))|(_ & _ & P)]]; [left; eauto| |right; eauto].
  left. exists sel. split; [reflexivity|]. apply in_or_app. right. now left.
Qed.
Section Kept.
Variable decode : string -> option result_file.
Variable complaint : string -> list string -> string.
Variable k : flavour.
Variables (f : string) (w : CliModel.world) (typed : list string).
Notation command := (export_main decode complaint k f typed w).
(** Whatever the file and whatever is typed: a file which was there is only replaced
    if the user agreed, or if they typed its name; a file which was not there is the
    one offered for a table they chose, or has a name they typed. *)
Lemma refused_frame : match CliModel.fs w f with
  | CliModel.File bytes => match decode bytes with Some h => forall l, load k h <> Loaded l | None => True end
  | _ => True end -> CliModel.fs (snd command) = CliModel.fs w.
Proof.
  unfold export_main, CliModel.bind at 1. cbn [CliModel.look]. destruct (CliModel.fs w f) as [|bytes|] eqn:F; [reflexivity| |].
  - intros H. unfold body, CliModel.bind at 1. unfold highlight, CliModel.echo_highlight, CliModel.bind at 1. cbn [negb CliModel.show CliModel.log CliModel.ret]. unfold CliModel.bind at 1. cbn [CliModel.look CliModel.fs]. rewrite F.
    destruct (decode bytes) as [h|]; [|reflexivity]. destruct (load k h) as [l|m|e]; [now destruct (H l)|reflexivity|reflexivity].
  - intros _. unfold body, CliModel.bind at 1. unfold highlight, CliModel.echo_highlight, CliModel.bind at 1. cbn [negb CliModel.show CliModel.log CliModel.ret]. unfold CliModel.bind at 1. cbn [CliModel.look CliModel.fs]. rewrite F. reflexivity.
Qed.
Lemma any_flavour : CliModel.fs (snd command) = CliModel.fs w \/ exists texts h saved, changes texts h f typed (CliModel.fs w) saved (CliModel.fs (snd command)).
Proof.
  destruct (CliModel.fs w f) as [|bytes|] eqn:F; [left; apply refused_frame; now rewrite F| |left; apply refused_frame; now rewrite F].
  destruct (decode bytes) as [h|] eqn:D; [|left; apply refused_frame; now rewrite F, D].
  destruct (load k h) as [l|m|e] eqn:L; [|left; apply refused_frame; rewrite F, D, L; discriminate|left; apply refused_frame; rewrite F, D, L; discriminate].
  right. destruct (any_command decode complaint k f h l) with (bytes := bytes) (w := w) (typed := typed) as (r & v & saved & A & B & _); [|exact F|exact D|exact L|].
  - intros sel H. unfold load in L. destruct (about h); [|discriminate]. destruct (array_unit h "T"); [|discriminate]. destruct (array_unit h (second k)); [|discriminate]. destruct (forallb _ _); [|discriminate].
    injection L as <-. cbn [l_keys] in H. unfold other_keys in H. apply filter_In in H as (H & _). exact (Permutation_in _ (Permutation_map fst (by_name_perm (named h))) H).
  - rewrite A. cbn [snd]. eauto.
Qed.
Theorem C98_kept q : CliModel.fs (snd command) q <> CliModel.fs w q ->
  (CliModel.fs w q <> CliModel.Absent -> (exists sel, q = offered f sel /\ agreed typed sel) \/ exists sel, renamed typed sel q) /\
  ((exists sel, q = offered f sel /\ In sel typed) \/ exists sel, renamed typed sel q) /\
  (exists text, CliModel.fs (snd command) q = CliModel.File text).
Proof.
  intros N. destruct any_flavour as [E|(texts & h & saved & C)]; [rewrite E in N; contradiction|].
  split; [intros A; exact (changes_kept _ _ _ _ _ _ _ C q A N)|]. destruct (changes_new _ _ _ _ _ _ _ C q N) as ((sel & _ & E) & B). split; [exact B|eauto].
Qed.
(** * Files which cannot be exported: a message or an exception, and nothing changes. *)
Definition tells (v : CliModel.world) (message : string) : Prop := In (CliModel.Error, message) (CliModel.screen v).
Lemma opens bytes : CliModel.fs w f = CliModel.File bytes -> exists v0, CliModel.fs v0 = CliModel.fs w /\ (decode bytes = None -> command = (CliModel.Raises "OSError", v0)) /\
  forall h m, decode bytes = Some h -> load k h = Refused m -> command = failure m v0.
Proof.
  intros F. eexists. split; [|split].
  2: intros D. 3: intros h m D L.
  2,3: unfold export_main, CliModel.bind at 1; cbn [CliModel.look]; rewrite F; unfold body, CliModel.bind at 1; unfold highlight at 1, CliModel.echo_highlight at 1, CliModel.bind at 1;
    cbn [negb CliModel.show CliModel.log CliModel.ret]; unfold CliModel.bind at 1; cbn [CliModel.look CliModel.fs]; rewrite F, D; try rewrite L; reflexivity.
  reflexivity.
Qed.
Theorem C98_refused :
  (CliModel.fs w f = CliModel.Absent -> command = (CliModel.Raises "UsageError", w)) /\
  (CliModel.fs w f = CliModel.Dir -> exists v, command = (CliModel.Ok tt, v) /\ CliModel.fs v = CliModel.fs w /\ tells v ("'" +++ f +++ "' is not a file")) /\
  (forall bytes, CliModel.fs w f = CliModel.File bytes ->
    (decode bytes = None -> exists v, command = (CliModel.Raises "OSError", v) /\ CliModel.fs v = CliModel.fs w) /\
    (forall h, decode bytes = Some h ->
      (about h = None -> exists v, command = (CliModel.Ok tt, v) /\ CliModel.fs v = CliModel.fs w /\ tells v "This does not appear to be a Quantas output file") /\
      (about h <> None -> find "T" (named h) = None \/ find (second k) (named h) = None ->
        exists v, command = (CliModel.Ok tt, v) /\ CliModel.fs v = CliModel.fs w /\ tells v "This does not appear to be a Quantas HA output file"))).
Proof.
  unfold tells. split; [|split].
  - intros F. unfold export_main, CliModel.bind at 1. cbn [CliModel.look]. now rewrite F.
  - intros F. unfold export_main, CliModel.bind at 1. cbn [CliModel.look]. rewrite F. unfold body, CliModel.bind at 1. unfold highlight, CliModel.echo_highlight, CliModel.bind at 1.
    cbn [negb CliModel.show CliModel.log CliModel.ret]. unfold CliModel.bind at 1. cbn [CliModel.look CliModel.fs]. rewrite F. eexists. split; [reflexivity|]. split; [reflexivity|].
    cbn [CliModel.screen]. apply in_or_app. right. now left.
  - intros bytes F. destruct (opens bytes F) as (v0 & Fv & E1 & E2). split.
    + intros D. exists v0. auto.
    + intros h D. split.
      * intros A. rewrite (E2 h "This does not appear to be a Quantas output file" D); [|unfold load; now rewrite A]. eexists. split; [reflexivity|]. split; [exact Fv|]. cbn [CliModel.screen]. apply in_or_app. right. now left.
      * intros A B. destruct (about h) as [i|] eqn:AB; [|contradiction]. assert (L : load k h = Refused "This does not appear to be a Quantas HA output file").
        { unfold load. rewrite AB. destruct B as [B|B]; unfold array_unit; rewrite B; [reflexivity|]. now destruct (match find "T" (named h) with None => None | Some d => _ end). }
        rewrite (E2 h _ D L). eexists. split; [reflexivity|]. split; [exact Fv|]. cbn [CliModel.screen]. apply in_or_app. right. now left.
Qed.
(** An array without unit ends the command. *)
Theorem C98_no_unit_refuted bytes h text T tu P pu name d : CliModel.fs w f = CliModel.File bytes -> decode bytes = Some h -> about h = Some text -> vector h "T" tu T -> vector h (second k) pu P ->
  find name (named h) = Some d -> find "unit" (attributes d) = None -> exists v, command = (CliModel.Raises "KeyError", v) /\ CliModel.fs v = CliModel.fs w.
Proof.
  intros F D A (d1 & F1 & C1 & U1) (d2 & F2 & C2 & U2) Fd Ud. assert (L : load k h = Broken "KeyError").
  { unfold load. rewrite A. unfold array_unit at 1 2. rewrite F1, U1, F2, U2. replace (forallb _ _) with false; [reflexivity|]. symmetry. apply not_true_is_false. intros H. rewrite forallb_forall in H.
    assert (I : In name (other_keys k h)).
    { unfold other_keys. apply filter_In. split.
      - apply (Permutation_in _ (Permutation_sym (Permutation_map fst (by_name_perm (named h))))). apply (in_map fst) with (x := (name, d)). now apply find_in.
      - destruct (String.eqb_spec name "T") as [->|N1]; [congruence|]. destruct (String.eqb_spec name (second k)) as [->|N2]; [congruence|]. reflexivity. }
    specialize (H name I). unfold array_unit in H. rewrite Fd, Ud in H. discriminate. }
  unfold export_main, CliModel.bind at 1. cbn [CliModel.look]. rewrite F. unfold body, CliModel.bind at 1. unfold highlight at 1, CliModel.echo_highlight at 1, CliModel.bind at 1.
  cbn [negb CliModel.show CliModel.log CliModel.ret]. unfold CliModel.bind at 1. cbn [CliModel.look CliModel.fs]. rewrite F, D, L. eexists. split; reflexivity.
Qed.
End Kept.
(** The file of one calculation is not taken for the other's. *)
Theorem C98_other_kind decode complaint f w typed s name bytes h : CliModel.fs w f = CliModel.File bytes -> decode bytes = Some h ->
  ((exists temps press r, h = qha_result_file s name temps press r) ->
   exists v, export_main decode complaint ha_flavour f typed w = (CliModel.Ok tt, v) /\ CliModel.fs v = CliModel.fs w /\ tells v "This does not appear to be a Quantas HA output file") /\
  ((exists x temps r, h = ha_result_file s name x temps r) ->
   exists v, export_main decode complaint qha_flavour f typed w = (CliModel.Ok tt, v) /\ CliModel.fs v = CliModel.fs w /\ tells v "This does not appear to be a Quantas HA output file").
Proof.
  intros F D. split.
  - intros (temps & press & r & ->). destruct (C98_refused decode complaint ha_flavour f w typed) as (_ & _ & X). destruct (X _ F) as (_ & Y). apply (Y _ D); [discriminate|right; reflexivity].
  - intros (x & temps & r & ->). destruct (C98_refused decode complaint qha_flavour f w typed) as (_ & _ & X). destruct (X _ F) as (_ & Y). apply (Y _ D); [discriminate|right; reflexivity].
Qed.

(** * Calculating, then exporting *)
Section Harmonic.
Variable K : constants.
Variables hplanck kboltzmann : R.
Variable yaml_load : string -> QhaReaderModel.parsed.
Variable times : nat -> string.
Variable total_time : string.
Variable encode : result_file -> string.
Variable memory : string -> nat -> nat -> R.
Variable special_case : QhaReaderModel.yaml -> CliModel.method (option string) * string.
Variables (u : HaCommandModel.ha_options) (f : string) (o : option string) (silent d : bool) (a : CliModel.result bool) (w : CliModel.world).
Notation out := (CliModel.outpath (CliModel.ha_command (HaCommandModel.print_settings u)) f o).
Notation run_command := (HaCommandModel.ha_main K hplanck kboltzmann yaml_load times total_time encode memory special_case u f o silent d a w).
Hypothesis PK : positive_constants K.
Hypotheses (Hh : (0 < hplanck)%R) (Hk : (0 < kboltzmann)%R).
(** `quantas ha` on a document, then `quantas export ha` on its result (which h5py
    reads back): the tables the user asks for hold the harmonic values of the
    document's crystal. *)
Theorem C98_harmonic text y name na nq given cell vols ens wt F : HaCommandProps.started u f o w text -> snd (HaCommandModel.trange u) <> 0%R -> HaCommandProps.out_free u f o a w ->
  yaml_load text = QhaReaderModel.Parsed y -> PhononInputProps.describes y name na nq given cell vols ens wt F -> List.length ens = List.length vols -> vols <> [] ->
  exists v h, run_command = (CliModel.Ok tt, v) /\ CliModel.fs v out = CliModel.File (encode h) /\ (forall q, q <> CliModel.logpath out -> q <> out -> CliModel.fs v q = CliModel.fs w q) /\ forall decode complaint, decode (encode h) = Some h ->
  exists texts temps Uzp Uth Utot Sv Fvib Fr Cv,
    stepped (fst (fst (HaCommandModel.trange u))) (snd (fst (HaCommandModel.trange u))) (snd (HaCommandModel.trange u)) temps /\
    HaCommandProps.harmonic_values K hplanck kboltzmann u temps na given ens wt F (List.length vols) Uzp Uth Utot Sv Fvib Fr Cv /\
    (forall name unit g, In (name, unit, g) [("Uth", HaCommandModel.eunit_o u, Uth); ("Utot", HaCommandModel.eunit_o u, Utot); ("S", "m" +++ HaCommandModel.eunit_o u, Sv);
        ("Fvib", HaCommandModel.eunit_o u, Fvib); ("F", HaCommandModel.eunit_o u, Fr); ("Cv", "m" +++ HaCommandModel.eunit_o u, Cv)] ->
      printed false (texts name) temps ("T (" +++ HaCommandModel.tunit_o u +++ ")") vols ("V (" +++ HaCommandModel.vunit_o u +++ "^3)") g name unit) /\
    forall typed later, session texts ha_names out (CliModel.fs v) typed later ->
      exists v', export_main decode complaint ha_flavour out typed v = (CliModel.Ok tt, v') /\ CliModel.fs v' = later.
Proof.
  intros ST NZ O Y D L NV.
  destruct (C95_saved K hplanck kboltzmann yaml_load times total_time encode memory special_case u f o silent d a w PK Hh Hk text y name na nq given cell vols ens wt F ST NZ O Y D L)
    as (v & h & E & S1 & (DO & A & B & temps & C & SP & Uzp & Uth & Utot & Sv & Fvib & Fr & Cv & T1 & T2 & T3 & T4 & T5 & T6 & T7 & HV) & FR).
  exists v, h. split; [exact E|]. split; [exact S1|]. split; [exact FR|]. intros decode complaint DE. pose proof ST as [(Ue & Uv & Uf & Ut) _ _ _].
  assert (N1 : no_newline (HaCommandModel.eunit_o u)) by (cbn [In] in Ue; destruct Ue as [<-|[<-|[<-|[]]]]; reflexivity).
  assert (N2 : no_newline (HaCommandModel.vunit_o u)) by (cbn [In] in Uv; destruct Uv as [<-|[<-|[]]]; reflexivity).
  assert (N3 : no_newline (HaCommandModel.tunit_o u)) by (cbn [In] in Ut; destruct Ut as [<-|[<-|[]]]; reflexivity).
  assert (N4 : no_newline ("m" +++ HaCommandModel.eunit_o u)) by (cbn [In] in Ue; destruct Ue as [<-|[<-|[<-|[]]]]; reflexivity).
  destruct (C98_ha_session decode complaint out (encode h) h v S1 DE DO temps (HaCommandModel.tunit_o u) C N3 vols (HaCommandModel.vunit_o u) A NV N2) as (texts & TA & SE).
  { intros nm I. cbn [ha_names In] in I. repeat (destruct I as [<-|I]; [eexists _, _; split; [eassumption|assumption]|]). destruct I. }
  exists texts, temps, Uzp, Uth, Utot, Sv, Fvib, Fr, Cv. split; [exact SP|]. split; [exact HV|]. split; [|exact SE].
  intros nm un g I. cbn [In] in I. repeat (destruct I as [[= <- <- <-]|I]; [apply TA; [cbn; tauto|assumption|assumption]|]). destruct I.
Qed.
End Harmonic.
Section Quasiharmonic.
Import QhaRunModel(results).
Import QhaCommandModel.
Variable K : constants.
Variables hplanck kboltzmann : R.
Variable yaml_load : string -> QhaReaderModel.parsed.
Variable np_polyfit : nat -> (nat -> R) -> (nat -> R) -> nat -> list R.
Variable roots : list R -> list (R * R).
Variable eos_fit : string -> nat -> (nat -> R) -> (nat -> R) -> QhaRunModel.outcome ((R * R * R * R) * (shown * shown * shown * shown)).
Variable float_text : R -> string.
Variable times : nat -> string.
Variable total_time : string.
Variable encode : result_file -> string.
Variable special_case : qha_options -> QhaReaderModel.yaml -> CliModel.job.
Variables (u : qha_options) (f : string) (o : option string) (silent d : bool) (a : CliModel.result bool) (w : CliModel.world).
Notation out := (CliModel.outpath (CliModel.qha_command (qha_print_settings u)) f o).
Notation run_command := (qha_main K hplanck kboltzmann yaml_load np_polyfit roots eos_fit float_text times total_time encode special_case u f o silent d a w).
Notation computed := (QhaCommandProps2.computed K hplanck kboltzmann yaml_load np_polyfit roots eos_fit float_text times total_time encode special_case u f o silent d a w).
Definition listing (r : results) : list (string * string * (nat -> nat -> R)) :=
  let e := eunit_q u in let me := "m" +++ eunit_q u in
  [("Uzp", e, QhaRunModel.Uzp r); ("Uth", e, QhaRunModel.Uth r); ("Utot", e, QhaRunModel.Utot r); ("S", me, QhaRunModel.Ent r); ("Fvib", e, QhaRunModel.Fvib r); ("F", e, QhaRunModel.F r);
   ("Cv", me, QhaRunModel.Cv r); ("VT", vunit_q u, QhaRunModel.VT r); ("Cp", e, QhaRunModel.Cp r); ("Cp-Cv", e, QhaRunModel.CpCv r); ("KT", punit_q u, QhaRunModel.KT r);
   ("KS", punit_q u, QhaRunModel.KS r); ("Kp", "", QhaRunModel.Kp r); ("H", e, QhaRunModel.H r); ("G", e, QhaRunModel.G r); ("alphaV", "K^-1", QhaRunModel.alphaV r); ("gruneisen", "", QhaRunModel.gruneisen r)].
(** `quantas qha` on a document, then `quantas export qha` on its result: whatever is
    true of the calculated values (see the theorems of C96) is true of the values in
    the tables the user asks for. *)
Theorem C98_quasiharmonic text claim : QhaCommandProps.started u f o w text -> QhaCommandProps.range_ok (pressures u) -> computed claim ->
  exists v h, run_command = (CliModel.Ok tt, v) /\ CliModel.fs v out = CliModel.File (encode h) /\ (forall q, q <> CliModel.logpath out -> q <> out -> CliModel.fs v q = CliModel.fs w q) /\ forall decode complaint, decode (encode h) = Some h ->
  exists texts temps press r,
    QhaCommandProps2.asked (temperatures u) temps /\ QhaCommandProps2.asked (pressures u) press /\ claim temps press r /\
    (forall name unit g, In (name, unit, g) (listing r) -> printed true (texts name) temps ("T (" +++ tunit_q u +++ ")") press ("P (" +++ punit_q u +++ ")") g name unit) /\
    forall typed later, session texts qha_names out (CliModel.fs v) typed later ->
      exists v', export_main decode complaint qha_flavour out typed v = (CliModel.Ok tt, v') /\ CliModel.fs v' = later.
Proof.
  intros ST RO (v & h & temps & press & r & E & S1 & (DO & V1 & V2 & T1 & T2 & T3 & T4 & T5 & T6 & T7 & T8 & T9 & T10 & T11 & T12 & T13 & T14 & T15 & T16 & T17) & AT & AP & CL & FR).
  exists v, h. split; [exact E|]. split; [exact S1|]. split; [exact FR|]. intros decode complaint DE. destruct (QhaCommandProps.units_offered _ _ _ _ _ ST) as (Ue & Uv & Uf & Ut & Up).
  assert (N1 : no_newline (eunit_q u)) by (cbn [In] in Ue; destruct Ue as [<-|[<-|[<-|[]]]]; reflexivity).
  assert (N2 : no_newline (vunit_q u)) by (cbn [In] in Uv; destruct Uv as [<-|[<-|[]]]; reflexivity).
  assert (N3 : no_newline (tunit_q u)) by (cbn [In] in Ut; destruct Ut as [<-|[<-|[]]]; reflexivity).
  assert (N4 : no_newline ("m" +++ eunit_q u)) by (cbn [In] in Ue; destruct Ue as [<-|[<-|[<-|[]]]]; reflexivity).
  assert (N5 : no_newline (punit_q u)) by (cbn [In] in Up; destruct Up as [<-|[<-|[]]]; reflexivity).
  assert (N6 : no_newline "") by reflexivity. assert (N7 : no_newline "K^-1") by reflexivity.
  assert (NP : press <> []).
  { intros ->. unfold QhaCommandProps2.asked, stepped in AP. unfold QhaCommandProps.range_ok in RO. destruct (pressures u) as [[lo hi] st]. cbn [fst snd List.length] in AP. destruct AP as (_ & A1 & A2).
    destruct RO as [(R1 & R2)|(R1 & R2)].
    - pose proof (proj2 (A1 R1 0)) as X. cbn [INR] in X. lapply X; [lia|lra].
    - pose proof (proj2 (A2 R1 0)) as X. cbn [INR] in X. lapply X; [lia|lra]. }
  destruct (C98_qha_session decode complaint out (encode h) h v S1 DE DO temps (tunit_q u) V1 N3 press (punit_q u) V2 NP N5) as (texts & TA & SE).
  { intros nm I. cbn [qha_names In] in I. repeat (destruct I as [<-|I]; [eexists _, _; split; [eassumption|assumption]|]). destruct I. }
  exists texts, temps, press, r. split; [exact AT|]. split; [exact AP|]. split; [exact CL|]. split; [|exact SE].
  intros nm un g I. unfold listing in I. cbn [In] in I. repeat (destruct I as [[= <- <- <-]|I]; [apply TA; [cbn; tauto|assumption|assumption]|]). destruct I.
Qed.
End Quasiharmonic.

(** A harmonic run and the export of two of its tables. *)
Example C98_instance : exists v h, sample_run (sample (map QhaReaderModel.YNum [-1; -2]%R)) sample_options = (CliModel.Ok tt, v) /\ CliModel.fs v "run/MgO_HA.hdf5" = CliModel.File "h5" /\
  exists v' texts, export_main (fun _ => Some h) (fun _ _ => "") ha_flavour "run/MgO_HA.hdf5" ["F"; "y"; "Cv"; "n"] v = (CliModel.Ok tt, v') /\
    CliModel.fs v' "run/MgO_HA_F.dat" = CliModel.File (texts "F") /\ CliModel.fs v' "run/MgO_HA_Cv.dat" = CliModel.File (texts "Cv") /\ CliModel.fs v' "run/MgO_HA.hdf5" = CliModel.File "h5" /\
    CliModel.fs v' "run/MgO.yaml" = CliModel.File "text" /\
    exists temps g, printed false (texts "F") temps "T (K)" [18; 19]%R "V (A^3)" g "F" "eV".
Proof.
  assert (H1 : (0 < 1)%R) by lra. assert (NZ : snd (HaCommandModel.trange sample_options) <> 0%R) by (cbn; lra). assert (ST : started sample_options "run/MgO.yaml" None (sample_disk "text") "text") by apply sample_started.
  assert (O : out_free sample_options "run/MgO.yaml" None (CliModel.Ok false) (sample_disk "text")) by (left; reflexivity).
  edestruct C98_harmonic with (yaml_load := fun _ : string => QhaReaderModel.Parsed (sample (map QhaReaderModel.YNum [-1; -2]%R))) as (v & h & E & S1 & FR & X); [exact codata_positive|exact H1|exact H1|exact ST|exact NZ|exact O|reflexivity|apply (sample_described [-1; -2]%R)|reflexivity|discriminate|].
  exists v, h. split; [exact E|]. split; [exact S1|].
  destruct (X (fun _ => Some h) (fun _ _ => "") eq_refl) as (texts & temps & Uzp & Uth & Utot & Sv & Fvib & Fr & Cv & _ & _ & TA & SE). clear X.
  assert (Q : forall q, q <> "run/MgO_HA.txt" -> q <> "run/MgO_HA.hdf5" -> CliModel.fs v q = CliModel.fs (sample_disk "text") q) by (intros q N1 N2; apply FR; assumption).
  destruct (SE ["F"; "y"; "Cv"; "n"] (CliModel.update (CliModel.update (CliModel.fs v) "run/MgO_HA_F.dat" (CliModel.File (texts "F"))) "run/MgO_HA_Cv.dat" (CliModel.File (texts "Cv")))) as (v' & E' & F').
  - apply (goes_on texts ha_names _ (CliModel.fs v) ["F"] "F" "run/MgO_HA_F.dat" "y"); [cbn; tauto| |cbn; tauto|].
    + apply (as_offered "run/MgO_HA.hdf5" (CliModel.fs v) "F"). change (offered "run/MgO_HA.hdf5" "F") with "run/MgO_HA_F.dat". rewrite Q by discriminate. reflexivity.
    + apply (stops texts ha_names _ _ ["Cv"] "Cv" "run/MgO_HA_Cv.dat" "n"); [cbn; tauto| |cbn; tauto].
      apply (as_offered "run/MgO_HA.hdf5" _ "Cv"). change (offered "run/MgO_HA.hdf5" "Cv") with "run/MgO_HA_Cv.dat". unfold CliModel.update. cbn -[CliModel.fs]. rewrite Q by discriminate. reflexivity.
  - exists v', texts. split; [exact E'|]. rewrite F'. unfold CliModel.update. cbn -[CliModel.fs]. split; [reflexivity|]. split; [reflexivity|]. split; [exact S1|]. split; [rewrite Q by discriminate; reflexivity|].
    exists temps, Fr. apply TA. cbn. tauto.
Qed.
(** The static energies of that run cannot be exported. *)
Example C98_instance_static : exists v h v', sample_run (sample (map QhaReaderModel.YNum [-1; -2]%R)) sample_options = (CliModel.Ok tt, v) /\
  export_main (fun _ => Some h) (fun _ _ => "") ha_flavour "run/MgO_HA.hdf5" ["U0"] v = (CliModel.Raises "IndexError", v').
Proof.
  assert (H1 : (0 < 1)%R) by lra. assert (NZ : snd (HaCommandModel.trange sample_options) <> 0%R) by (cbn; lra). assert (ST : started sample_options "run/MgO.yaml" None (sample_disk "text") "text") by apply sample_started.
  assert (O : out_free sample_options "run/MgO.yaml" None (CliModel.Ok false) (sample_disk "text")) by (left; reflexivity).
  edestruct C95_saved with (yaml_load := fun _ : string => QhaReaderModel.Parsed (sample (map QhaReaderModel.YNum [-1; -2]%R)))
    as (v & h & E & S1 & (DO & A & B & temps & C & SP & Uzp & Uth & Utot & Sv & Fvib & Fr & Cv & T1 & T2 & T3 & T4 & T5 & T6 & T7 & HV) & FR); [exact codata_positive|exact H1|exact H1|exact ST|exact NZ|exact O|reflexivity|apply (sample_described [-1; -2]%R)|reflexivity|].
  assert (NT : temps <> []).
  { intros ->. destruct SP as (_ & A1 & _). cbn [fst snd sample_options HaCommandModel.trange] in A1. pose proof (proj2 (A1 ltac:(lra) 0)) as X. cbn [INR List.length] in X. lapply X; [lia|lra]. }
  destruct (C98_ha_static_refuted (fun _ => Some h) (fun _ _ => "") "run/MgO_HA.hdf5" "h5" h v S1 eq_refl DO temps "K" C eq_refl [18; 19]%R "A" A ltac:(discriminate) eq_refl) with (ens := [-1; -2]%R) (eu := "eV") as (v' & text & X & _).
  - intros nm I. cbn [ha_names In] in I. repeat (destruct I as [<-|I]; [eexists _, _; split; [eassumption|reflexivity]|]). destruct I.
  - exact B.
  - exact NT.
  - change (offered "run/MgO_HA.hdf5" "U0") with "run/MgO_HA_U0.dat". rewrite FR by discriminate. reflexivity.
  - exists v, h, v'. split; [exact E|exact X].
Qed.
(** A quasi-harmonic run and the export of its volumes. *)
Import QhaCommandProps2 QhaCommandProps3.
Example C98_instance_volumes sch : In sch ["freq"; "td"] -> exists v h v' text temps press g, run_of (QhaReaderModel.Parsed (good bowl)) (choose sch "poly" false sixty pressed) = (CliModel.Ok tt, v) /\
  export_main (fun _ => Some h) (fun _ _ => "") qha_flavour "run/MgO_QHA.hdf5" ["VT"; "n"] v = (CliModel.Ok tt, v') /\
  CliModel.fs v' "run/MgO_QHA_VT.dat" = CliModel.File text /\ printed true text temps "T (K)" press "P (GPa)" g "VT" "A" /\ List.length temps = 60 /\ forall i, i < 60 -> g i 0 = 11%R.
Proof.
  intros A. destruct constants_positive as (H1 & H2).
  pose proof (good_prepared sch "poly" false sixty pressed bowl A (or_introl eq_refl) (or_introl eq_refl) (or_introl eq_refl) eq_refl) as PR.
  edestruct C98_quasiharmonic with (yaml_load := fun _ : string => QhaReaderModel.Parsed (good bowl)) as (v & h & E & S1 & FR & X);
    [exact (k_started _ _ _ _ _ _ _ _ _ _ _ _ PR)|exact (k_pressures _ _ _ _ _ _ _ _ _ _ _ _ PR)|
     eapply (C96_minimum codata) with (yaml_load := fun _ : string => QhaReaderModel.Parsed (good bowl)); [exact codata_positive|exact H1|exact H2|exact PR|left; reflexivity|reflexivity|apply bowl_minimises|reflexivity]|].
  destruct (X (fun _ => Some h) (fun _ _ => "") eq_refl) as (texts & temps & press & r & AT & AP & CL & TA & SE).
  destruct (SE ["VT"; "n"] (CliModel.update (CliModel.fs v) "run/MgO_QHA_VT.dat" (CliModel.File (texts "VT")))) as (v' & E' & F').
  { apply (stops texts qha_names _ (CliModel.fs v) ["VT"] "VT" "run/MgO_QHA_VT.dat" "n"); [cbn; tauto| |cbn; tauto].
    apply (as_offered "run/MgO_QHA.hdf5" (CliModel.fs v) "VT"). change (offered "run/MgO_QHA.hdf5" "VT") with "run/MgO_QHA_VT.dat". rewrite FR by discriminate. reflexivity. }
  exists v, h, v', (texts "VT"), temps, press, (QhaRunModel.VT r). split; [exact E|]. split; [exact E'|]. split; [rewrite F'; unfold CliModel.update; cbn; reflexivity|].
  split; [apply TA; unfold listing; cbn; tauto|]. pose proof (sixty_points _ AT) as L. split; [exact L|].
  intros i Hi. rewrite <- L in Hi. destruct (CL i Hi) as (g & F0 & M). destruct AP as (P0 & Up & _). cbn [fst snd pressed QhaCommandModel.temperatures QhaCommandModel.pressures choose] in P0, Up. assert (J : 0 < List.length press) by (apply Up; [lra|]; cbn; lra).
  pose proof (M 0 J) as N. rewrite P0 in N by exact J. destruct (parabola sch "poly" false sixty pressed _ _ _ g 1%R F0) as (C & D1 & D2 & _).
  destruct N as (p0 & EP & N & _). rewrite D1 in N.
  assert (Z : p0 = 0%R) by (apply zero_target; rewrite EP; cbn; ring). lra.
Qed.

Print Assumptions C98_kept.
Print Assumptions C98_refused.
Print Assumptions C98_no_unit_refuted.
Print Assumptions C98_other_kind.
Print Assumptions C98_harmonic.
Print Assumptions C98_quasiharmonic.
