(** C98: what the user sees during an export session. *)
From Coq Require Import Reals String Ascii List Bool Arith ZArith Lia Lra Permutation.
From Verif Require CliModel CliProps CitationsModel EosFitModel HaCommandModel QhaReaderModel.
From Verif Require Import Py DecimalModel DecimalProofs FormatModel FormatProofs YamlSpec UnitsModel UnitsSpec UnitsProps TableModel TableProofs TableProps StoreModel SoecTableModel H5Model H5Props HaCommandProps
  ExportCommandModel ExportCommandProps ExportCommandProps2 ExportCommandProps3.
Import ListNotations.
Open Scope string_scope.
Open Scope list_scope.
Open Scope nat_scope.

(** * The screen *)
Definition seen := list (CliModel.kind * string).
Definition question (q : string) : seen := [(CliModel.Question, q)].
Definition message (m : string) : seen := [(CliModel.Plain, m)].
Definition saved_as (file : string) : seen := message ("Data successfully exported to '" +++ file +++ "'").
Definition taken (file : string) : seen := question ("File '" +++ file +++ "' exists. Overwrite it?").
(** What answers the lines of one request. *)
Inductive answered (f : string) (now : files) : list string -> string -> seen -> Prop :=
| free sel : now (offered f sel) = CliModel.Absent -> answered f now [sel] (offered f sel) (saved_as (offered f sel))
| again sel y old : now (offered f sel) = CliModel.File old -> yes y -> answered f now [sel; y] (offered f sel) (taken (offered f sel) ++ saved_as (offered f sel))
| other sel n name : now (offered f sel) <> CliModel.Absent -> no n ->
    answered f now [sel; n; name] name (taken (offered f sel) ++ question "Please, enter a file name" ++ saved_as name).
(** The whole conversation, after the first question. *)
Inductive conversation (content : string -> string) (f : string) : files -> list string -> seen -> Prop :=
| closing now lines file said n : answered f now lines file said -> no n ->
    conversation content f now (lines ++ [n]) (said ++ question "Would you like to export other data?")
| continuing now lines sel file said y more later : answered f now (sel :: lines) file said -> yes y ->
    conversation content f (CliModel.update now file (CliModel.File (content sel))) more later ->
    conversation content f now (sel :: lines ++ y :: more) (said ++ question "Would you like to export other data?" ++ message "" ++ question "Select data to export" ++ later).
Definition greeting (info : string) : seen := [(CliModel.Highlight, CitationsModel.quantas_title)] ++ message info ++ message "" ++ question "Select data to export".
Definition farewell : seen := map (fun m => (CliModel.Highlight, m)) [CitationsModel.biblio_header; CitationsModel.quantas_citation; CitationsModel.biblio_footer; CitationsModel.quantas_finish].

(** ** Proofs *)
Section Command.
Variable decode : string -> option result_file.
Variable complaint : string -> list string -> string.
Variable k : flavour.
Variable f : string.
Section Dialogue.
Variable l : loaded.
Notation base := (CliModel.root f).
Notation content := (fun sel => fst (table_of k l sel)).
Notation talk := (dialogue complaint k l base).
Lemma save_shows sel file w : CliModel.fs w file <> CliModel.Dir -> snd (table_of k l sel) = Done ->
  save k l sel file w = (CliModel.Ok tt, {| CliModel.fs := CliModel.update (CliModel.fs w) file (CliModel.File (content sel)); CliModel.screen := CliModel.screen w ++ saved_as file |}).
Proof. intros D E. unfold save, CliModel.bind, CliModel.write. rewrite E. destruct (CliModel.fs w file) eqn:F; [reflexivity|reflexivity|contradiction]. Qed.
Lemma ask_shows q w : ask q w = (CliModel.Ok tt, {| CliModel.fs := CliModel.fs w; CliModel.screen := CliModel.screen w ++ question q |}).
Proof. reflexivity. Qed.
Lemma echo_shows m w : echo m w = (CliModel.Ok tt, {| CliModel.fs := CliModel.fs w; CliModel.screen := CliModel.screen w ++ message m |}).
Proof. reflexivity. Qed.
Lemma look_shows p w : CliModel.look p w = (CliModel.Ok (CliModel.fs w p), w).
Proof. reflexivity. Qed.
Lemma request_shows lines sel file w rest : request f (CliModel.fs w) lines sel file -> In sel (l_keys l) -> sel <> "" -> snd (table_of k l sel) = Done ->
  exists said lines', lines = sel :: lines' /\ answered f (CliModel.fs w) lines file said /\ talk Choosing (lines ++ rest) w = talk Continuing rest
    {| CliModel.fs := CliModel.update (CliModel.fs w) file (CliModel.File (content sel)); CliModel.screen := CliModel.screen w ++ said ++ question more_question |}.
Proof.
  intros Q I N E. assert (FN : CliModel.fs w file <> CliModel.Dir) by (destruct Q as [sel Q|sel y old Q Y|sel n name Q Y Z D]; congruence).
  apply mem_in in I. apply String.eqb_neq in N.
  destruct Q as [sel Q|sel y old Q Y|sel n name Q Y Z D]; cbn [app dialogue]; rewrite N, I; change (default_name base sel) with (offered f sel); rewrite (bind_ok _ _ _ _ _ (look_shows _ _)); cbv beta.
  - exists (saved_as (offered f sel)), []. split; [reflexivity|]. split; [now apply free|]. rewrite Q; cbv beta; rewrite (bind_ok _ _ _ _ _ (save_shows sel _ w FN E)), (bind_ok _ _ _ _ _ (ask_shows _ _)). cbn [CliModel.fs CliModel.screen]. now rewrite <- app_assoc.
  - eexists _, [y]. split; [reflexivity|]. split; [now apply (again f _ sel y old)|]. rewrite Q, (bind_ok _ _ _ _ _ (ask_shows _ _)), (yes_answer y Y). erewrite bind_ok; [|apply save_shows; [exact FN|exact E]]. rewrite (bind_ok _ _ _ _ _ (ask_shows _ _)).
    cbn [CliModel.fs CliModel.screen]. unfold taken. now rewrite <- !app_assoc.
  - eexists _, [n; name]. split; [reflexivity|]. split; [now apply (other f _ sel n name)|]. apply String.eqb_neq in Z.
    destruct (CliModel.fs w (offered f sel)) eqn:F; [contradiction| |];
      rewrite (bind_ok _ _ _ _ _ (ask_shows _ _)), (no_answer n Y), (bind_ok _ _ _ _ _ (ask_shows _ _)), Z; (erewrite bind_ok; [|apply save_shows; [exact FN|exact E]]); rewrite (bind_ok _ _ _ _ _ (ask_shows _ _));
      cbn [CliModel.fs CliModel.screen]; unfold taken; now rewrite <- !app_assoc.
Qed.
Lemma session_shows choices now lines later : session content choices f now lines later -> (forall sel, In sel choices -> In sel (l_keys l) /\ sel <> "" /\ snd (table_of k l sel) = Done) ->
  forall w, CliModel.fs w = now -> exists said, conversation content f now lines said /\ talk Choosing lines w = (CliModel.Ok tt, {| CliModel.fs := later; CliModel.screen := CliModel.screen w ++ said |}).
Proof.
  intros H C. induction H as [now lines sel file n I Q N|now lines sel file y more later I Q Y _ IH]; intros w <-; destruct (C sel I) as (C1 & C2 & C3).
  - destruct (request_shows lines sel file w [n] Q C1 C2 C3) as (said & lines' & L & A & ->). exists (said ++ question more_question). split; [exact (closing _ f _ _ _ _ n A N)|].
    cbn [dialogue]. now rewrite (no_answer n N).
  - destruct (request_shows lines sel file w (y :: more) Q C1 C2 C3) as (said & lines' & -> & A & ->). cbn [dialogue]. rewrite (yes_answer y Y), (bind_ok _ _ _ _ _ (echo_shows _ _)), (bind_ok _ _ _ _ _ (ask_shows _ _)).
    cbn [CliModel.fs CliModel.screen]. edestruct IH as (s2 & K2 & ->); [reflexivity|]. eexists. split; [exact (continuing _ f _ _ _ _ _ y _ _ A Y K2)|]. cbn [CliModel.screen]. now rewrite <- !app_assoc.
Qed.
End Dialogue.
Lemma command_shows h l bytes typed w choices later : CliModel.fs w f = CliModel.File bytes -> decode bytes = Some h -> load k h = Loaded l ->
  (forall sel, In sel choices -> In sel (l_keys l) /\ sel <> "" /\ snd (table_of k l sel) = Done) -> session (fun sel => fst (table_of k l sel)) choices f (CliModel.fs w) typed later ->
  exists said, conversation (fun sel => fst (table_of k l sel)) f (CliModel.fs w) typed said /\
    export_main decode complaint k f typed w = (CliModel.Ok tt, {| CliModel.fs := later; CliModel.screen := CliModel.screen w ++ greeting (l_info l) ++ said ++ farewell |}).
Proof.
  intros F D L C H. set (w4 := {| CliModel.fs := CliModel.fs w; CliModel.screen := CliModel.screen w ++ greeting (l_info l) |}).
  destruct (session_shows l choices _ _ _ H C w4 eq_refl) as (said & K & E). exists said. split; [exact K|].
  unfold export_main. rewrite (bind_ok _ _ _ _ _ (look_shows _ _)), F. unfold body. erewrite bind_ok; [|reflexivity]. rewrite (bind_ok _ _ _ _ _ (look_shows _ _)). cbn [CliModel.fs]. rewrite F, D, L.
  erewrite bind_ok.
  2: { unfold run. rewrite (bind_ok _ _ _ _ _ (echo_shows _ _)), (bind_ok _ _ _ _ _ (echo_shows _ _)), (bind_ok _ _ _ _ _ (ask_shows _ _)). cbn [CliModel.fs CliModel.screen].
       unfold w4, greeting in E. rewrite !app_assoc in E. exact E. }
  cbv beta. unfold highlight, CliModel.echo_highlight, CliModel.bind, CliModel.show, CliModel.log, CliModel.ret. cbn [negb CliModel.fs CliModel.screen]. do 2 f_equal. unfold farewell, w4, greeting. cbn [CliModel.screen map]. now rewrite <- !app_assoc.
Qed.
End Command.

(** * During a session the screen shows the greeting, what the file says of itself, the
      questions, for each table the file it went to, and the references; each once, in order. *)
Section Files.
Variable decode : string -> option result_file.
Variable complaint : string -> list string -> string.
Variables (f bytes info : string) (h : result_file) (w : CliModel.world).
Hypothesis Fi : CliModel.fs w f = CliModel.File bytes.
Hypothesis De : decode bytes = Some h.
Hypothesis Do : documented h.
Hypothesis Ab : about h = Some info.
Variables (T : list R) (tu : string).
Hypothesis VT : vector h "T" tu T.
Hypothesis Nt : no_newline tu.
Variables (X : list R) (xu : string).
Hypothesis NX : X <> [].
Hypothesis Nx : no_newline xu.
Lemma load_info k l : load k h = Loaded l -> l_info l = info.
Proof. unfold load. rewrite Ab. destruct (array_unit h "T"); [|discriminate]. destruct (array_unit h (second k)); [|discriminate]. destruct (forallb _ _); [|discriminate]. now intros [= <-]. Qed.
Theorem C98_qha_screen : vector h "P" xu X -> tabulated h qha_names (List.length T) (List.length X) -> exists texts, qha_tables h T tu X xu texts /\
  forall typed later, session texts qha_names f (CliModel.fs w) typed later -> exists v said, export_main decode complaint qha_flavour f typed w = (CliModel.Ok tt, v) /\ CliModel.fs v = later /\
  conversation texts f (CliModel.fs w) typed said /\ CliModel.screen v = CliModel.screen w ++ greeting info ++ said ++ farewell.
Proof.
  intros VX TB. destruct (qha_loaded h Do T tu VT Nt X xu VX NX Nx TB) as (l & L & _ & Q & TA). exists (fun sel => fst (table_of qha_flavour l sel)). split; [exact TA|]. intros typed later S0.
  destruct (command_shows decode complaint qha_flavour f h l bytes typed w qha_names later Fi De L Q S0) as (said & K & E). rewrite (load_info _ _ L) in E. eexists _, said. split; [exact E|]. split; [reflexivity|]. split; [exact K|reflexivity].
Qed.
Theorem C98_ha_screen : vector h "V" xu X -> tabulated h ha_names (List.length T) (List.length X) -> exists texts, ha_tables h T tu X xu texts /\
  forall typed later, session texts ha_names f (CliModel.fs w) typed later -> exists v said, export_main decode complaint ha_flavour f typed w = (CliModel.Ok tt, v) /\ CliModel.fs v = later /\
  conversation texts f (CliModel.fs w) typed said /\ CliModel.screen v = CliModel.screen w ++ greeting info ++ said ++ farewell.
Proof.
  intros VX TB. destruct (ha_loaded h Do T tu VT Nt X xu VX NX Nx TB) as (text & L & Q & TA). set (l := ha_load h T tu X xu text) in *. exists (fun sel => fst (table_of ha_flavour l sel)). split; [exact TA|]. intros typed later S0.
  destruct (command_shows decode complaint ha_flavour f h l bytes typed w ha_names later Fi De L Q S0) as (said & K & E). rewrite (load_info _ _ L) in E. eexists _, said. split; [exact E|]. split; [reflexivity|]. split; [exact K|reflexivity].
Qed.
End Files.
Lemma one_table content f now sel n said : now (offered f sel) = CliModel.Absent -> conversation content f now [sel; n] said -> said = saved_as (offered f sel) ++ question "Would you like to export other data?".
Proof.
  intros A C. remember [sel; n] as t eqn:Et. destruct C as [now lines file sd n2 An No|now lines s1 file sd y more later An Y Co].
  - destruct An as [s2 A2|s2 y old A2 Y|s2 m name A2 M]; cbn [app] in Et; try discriminate Et. injection Et as -> ->. reflexivity.
  - exfalso. destruct lines as [|a [|b lines]]; cbn [app] in Et; try discriminate Et. injection Et as -> -> ->. remember [] as t eqn:Et in Co. destruct Co as [x1 l1 x3 x4 x5|].
    + destruct l1; discriminate Et.
    + discriminate Et.
Qed.
(** A harmonic run and the export of one table, as seen by the user. *)
Example C98_instance_screen : exists v h v' info, sample_run (sample (map QhaReaderModel.YNum [-1; -2]%R)) sample_options = (CliModel.Ok tt, v) /\ about h = Some info /\
  export_main (fun _ => Some h) (fun _ _ => "") ha_flavour "run/MgO_HA.hdf5" ["F"; "n"] v = (CliModel.Ok tt, v') /\
  CliModel.screen v' = CliModel.screen v ++ greeting info ++ [(CliModel.Plain, "Data successfully exported to 'run/MgO_HA_F.dat'"); (CliModel.Question, "Would you like to export other data?")] ++ farewell.
Proof.
  assert (H1 : (0 < 1)%R) by lra. assert (NZ : snd (HaCommandModel.trange sample_options) <> 0%R) by (cbn; lra). assert (ST : started sample_options "run/MgO.yaml" None (sample_disk "text") "text") by apply sample_started.
  assert (O : out_free sample_options "run/MgO.yaml" None (CliModel.Ok false) (sample_disk "text")) by (left; reflexivity).
  edestruct C95_saved with (yaml_load := fun _ : string => QhaReaderModel.Parsed (sample (map QhaReaderModel.YNum [-1; -2]%R)))
    as (v & h & E & S1 & (DO & A & B & temps & C & SP & Uzp & Uth & Utot & Sv & Fvib & Fr & Cv & T1 & T2 & T3 & T4 & T5 & T6 & T7 & HV) & FR); [exact codata_positive|exact H1|exact H1|exact ST|exact NZ|exact O|reflexivity|apply (sample_described [-1; -2]%R)|reflexivity|].
  pose proof DO as ((info & Ab) & _).
  destruct (C98_ha_screen (fun _ => Some h) (fun _ _ => "") "run/MgO_HA.hdf5" "h5" info h v S1 eq_refl DO Ab temps "K" C eq_refl [18; 19]%R "A" ltac:(discriminate) eq_refl A) as (texts & _ & X).
  { intros nm I. cbn [ha_names In] in I. repeat (destruct I as [<-|I]; [eexists _, _; split; [eassumption|reflexivity]|]). destruct I. }
  assert (FO : CliModel.fs v (offered "run/MgO_HA.hdf5" "F") = CliModel.Absent) by (change (offered "run/MgO_HA.hdf5" "F") with "run/MgO_HA_F.dat"; rewrite FR by discriminate; reflexivity).
  destruct (X ["F"; "n"] (CliModel.update (CliModel.fs v) (offered "run/MgO_HA.hdf5" "F") (CliModel.File (texts "F")))) as (v' & said & E' & _ & K & Sc).
  - apply (stops texts ha_names _ _ ["F"] "F" (offered "run/MgO_HA.hdf5" "F") "n"); [cbn; tauto| |cbn; tauto]. apply as_offered. exact FO.
  - exists v, h, v', info. split; [exact E|]. split; [exact Ab|]. split; [exact E'|]. rewrite Sc, (one_table _ _ _ _ _ _ FO K). reflexivity.
Qed.

Print Assumptions C98_qha_screen.
Print Assumptions C98_ha_screen.
