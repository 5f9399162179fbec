(** C99: the tables of a session of `quantas export soec`; files which are refused. *)
From Coq Require Import Reals String Ascii List Bool Arith ZArith NArith Lia Permutation Sorted.
From Verif Require CliModel CliProps CitationsModel EosFitModel.
From Verif Require Import Py DecimalModel DecimalProofs FormatModel FormatProofs YamlSpec TableModel TableProofs TableProps StoreModel SoecRunModel SoecTableModel SoecTableProofs SoecTableProps H5Props.
From Verif Require Import ExportCommandProps ExportCommandProps2 ExportScreenProps SoecExportModel SoecExportProps.
Import ListNotations.
Open Scope string_scope.
Open Scope list_scope.
Open Scope nat_scope.

(** * Names in order *)
Lemma leb_cons c a c' b : String.leb (String c a) (String c' b) = match Ascii.compare c c' with Lt => true | Eq => String.leb a b | Gt => false end.
Proof. unfold String.leb. cbn [String.compare]. destruct (Ascii.compare c c'); reflexivity. Qed.
Lemma leb_trans a : forall b c, alphabetic a b -> alphabetic b c -> alphabetic a c.
Proof.
  unfold alphabetic. induction a as [|x a IH]; intros [|y b] [|z c]; intros H1 H2; try reflexivity; try discriminate H1; try discriminate H2.
  rewrite leb_cons in *. unfold Ascii.compare in *. destruct (N.compare_spec (N_of_ascii x) (N_of_ascii y)) as [E1|E1|E1]; [| |discriminate H1];
    destruct (N.compare_spec (N_of_ascii y) (N_of_ascii z)) as [E2|E2|E2]; try discriminate H2.
  - rewrite E1, E2, N.compare_refl. now apply (IH b c).
  - rewrite E1. apply N.compare_lt_iff in E2. now rewrite E2.
  - rewrite <- E2. apply N.compare_lt_iff in E1. now rewrite E1.
  - assert (E3 : (N_of_ascii x < N_of_ascii z)%N) by lia. apply N.compare_lt_iff in E3. now rewrite E3.
Qed.
Lemma strongly {A} (l : list (string * A)) : StronglySorted alphabetic (map fst (by_name l)).
Proof. apply Sorted_StronglySorted; [intros a b c; apply leb_trans|]. apply Sorted_LocallySorted_iff. apply by_name_sorted. Qed.
Lemma filter_sorted {A} p (l : list (string * A)) : StronglySorted alphabetic (map fst l) -> StronglySorted alphabetic (map fst (filter p l)).
Proof.
  induction l as [|kd l IH]; intros H; cbn [filter map]; [constructor|]. cbn [map] in H. apply StronglySorted_inv in H as (H1 & H2). destruct (p kd); cbn [map]; [|now apply IH].
  constructor; [now apply IH|]. rewrite Forall_forall in *. intros k I. apply H2. apply in_map_iff in I as (kd' & <- & I). apply filter_In in I as (I & _). now apply in_map.
Qed.
Lemma filter_nodup {A} p (l : list (string * A)) : NoDup (map fst l) -> NoDup (map fst (filter p l)).
Proof.
  induction l as [|kd l IH]; intros H; cbn [filter map]; [constructor|]. cbn [map] in H. inversion H as [|? ? N H']; subst. destruct (p kd); cbn [map]; [|now apply IH].
  constructor; [|now apply IH]. intros I. apply N. apply in_map_iff in I as (kd' & E & I). apply filter_In in I as (I & _). rewrite <- E. now apply in_map.
Qed.
Lemma sorted_same l : forall l', StronglySorted alphabetic l -> StronglySorted alphabetic l' -> NoDup l -> NoDup l' -> (forall x, In x l <-> In x l') -> l = l'.
Proof.
  induction l as [|a l IH]; intros [|b l'] S1 S2 N1 N2 H; [reflexivity|exfalso; apply (H b); now left|exfalso; apply (H a); now left|].
  apply StronglySorted_inv in S1 as (S1 & F1), S2 as (S2 & F2). inversion N1 as [|? ? A1 A2]; inversion N2 as [|? ? B1 B2]; subst. rewrite Forall_forall in F1, F2.
  assert (E : a = b).
  { destruct (proj1 (H a) (or_introl eq_refl)) as [E|I]; [now symmetry|]. destruct (proj2 (H b) (or_introl eq_refl)) as [E|I']; [exact E|]. apply String.leb_antisym; [now apply F1|now apply F2]. }
  subst b. f_equal. apply IH; try assumption. intros x. split; intros I.
  - destruct (proj1 (H x) (or_intror I)) as [<-|I']; [contradiction|exact I'].
  - destruct (proj2 (H x) (or_intror I)) as [<-|I']; [contradiction|exact I'].
Qed.
Lemma leb_prefix p a b : String.leb (p +++ a) (p +++ b) = String.leb a b.
Proof. induction p as [|c p IH]; [reflexivity|]. cbn [String.append]. rewrite leb_cons. unfold Ascii.compare. rewrite N.compare_refl. exact IH. Qed.

(** * The arrays of one property *)
Definition array_name (sel : string) (pl : plane) : string := "polar_" +++ sel +++ "_" +++ plane_name pl.
(** Three matrices, one for each plane, with the same angles in front. *)
Definition crossing (h : h5) (sel u : string) (n : nat) (a : nat -> R) (v : plane -> nat -> list R) : Prop :=
  0 < n /\ (forall pl i, List.length (v pl i) = per_plane sel) /\
  (forall pl, In (array_name sel pl, {| values := Mat (map (fun i => a i :: v pl i) (seq 0 n)); unit_of := u |}) (datasets h)) /\
  (forall key d, cut h key d -> within sel key -> exists pl, key = array_name sel pl).
Definition side (v : plane -> nat -> list R) (i : nat) : list R := v XY i ++ v XZ i ++ v YZ i.

Lemma names_sorted sel : StronglySorted alphabetic [array_name sel XY; array_name sel XZ; array_name sel YZ] /\ NoDup [array_name sel XY; array_name sel XZ; array_name sel YZ].
Proof.
  assert (O : forall p q, alphabetic (array_name sel p) (array_name sel q) <-> String.leb (plane_name p) (plane_name q) = true).
  { intros p q. unfold alphabetic, array_name. now rewrite !leb_prefix. }
  split.
  - repeat constructor; apply O; reflexivity.
  - assert (D : forall p q, plane_name p <> plane_name q -> array_name sel p <> array_name sel q).
    { intros p q N E. apply N. unfold array_name in E. assert (O1 : String.leb (array_name sel p) (array_name sel q) = true) by (unfold array_name; rewrite E; apply String.leb_antisym || (destruct (String.leb_total ("polar_" +++ sel +++ "_" +++ plane_name q) ("polar_" +++ sel +++ "_" +++ plane_name q)); assumption)).
      assert (O2 : String.leb (array_name sel q) (array_name sel p) = true) by (unfold array_name in *; rewrite E in *; exact O1). apply O in O1, O2. now apply String.leb_antisym. }
    constructor; [intros [E|[E|[]]]; revert E; apply D; discriminate|]. constructor; [intros [E|[]]; revert E; apply D; discriminate|]. constructor; [intros []|constructor].
Qed.
Lemma fill_fresh {A} (l : list (string * A)) d : NoDup (map fst (d ++ l)) -> fold_left (fun l kd => dict_set (fst kd) (snd kd) l) l d = d ++ l.
Proof.
  revert d. induction l as [|(k, a) l IH]; intros d N; cbn [fold_left fst snd]; [now rewrite app_nil_r|].
  assert (E : dict_set k a d = d ++ [(k, a)]).
  { assert (K : ~ In k (map fst d)) by (rewrite map_app in N; intros I; cbn [map fst] in N; apply NoDup_remove_2 in N; apply N; apply in_or_app; now left). clear - K.
    induction d as [|(q, b) d IH]; [reflexivity|]. cbn [dict_set app]. destruct (String.eqb_spec k q) as [->|Nq]; [exfalso; apply K; now left|]. rewrite IH; [reflexivity|]. intros I. apply K. now right. }
  rewrite E, IH; rewrite <- app_assoc; [reflexivity|exact N].
Qed.
Lemma chosen_three h info_line sel u n a v : accepted h info_line -> NoDup (map fst (datasets h)) -> crossing h sel u n a v ->
  map snd (filter (fun kd => contains sel (fst kd)) (fst (soec_load h []))) = map (fun pl => {| values := Mat (map (fun i => a i :: v pl i) (seq 0 n)); unit_of := u |}) [XY; XZ; YZ].
Proof.
  intros (I & S0) U (N & L & C1 & C2). unfold soec_load. rewrite I. assert (F : exists d, find "stiffness" (datasets h) = Some d) by now apply in_find. destruct F as (d0 & ->). cbn [fst].
  assert (UB : NoDup (map fst (by_name (datasets h)))) by (apply (Permutation_NoDup (Permutation_map fst (Permutation_sym (by_name_perm (datasets h))))); exact U).
  set (polar := filter (fun kd => contains "polar_" (fst kd)) (by_name (datasets h))).
  rewrite fill_fresh by (cbn [app]; unfold polar; now apply filter_nodup). cbn [app]. set (L3 := filter (fun kd => contains sel (fst kd)) polar).
  assert (M : forall key d, In (key, d) L3 <-> cut h key d /\ within sel key).
  { intros key d. unfold L3, polar. rewrite !filter_In. cbn [fst]. rewrite !contains_in. unfold cut. split; intros ((A & B) & D); (split; [split; [|exact B]|exact D]).
    - exact (Permutation_in _ (by_name_perm (datasets h)) A).
    - exact (Permutation_in _ (Permutation_sym (by_name_perm (datasets h))) A). }
  assert (own : forall pl, cut h (array_name sel pl) {| values := Mat (map (fun i => a i :: v pl i) (seq 0 n)); unit_of := u |} /\ within sel (array_name sel pl)).
  { intros pl. split; [split; [apply C1|exists "", (sel +++ "_" +++ plane_name pl); reflexivity]|exists "polar_", ("_" +++ plane_name pl); reflexivity]. }
  assert (K : map fst L3 = [array_name sel XY; array_name sel XZ; array_name sel YZ]).
  { destruct (names_sorted sel) as (O1 & O2). apply sorted_same; [unfold L3, polar; apply filter_sorted, filter_sorted, strongly|exact O1|unfold L3, polar; now apply filter_nodup, filter_nodup|exact O2|].
    intros x. split.
    - intros H. apply in_map_iff in H as ((key & d) & <- & H). apply M in H as (H1 & H2). destruct (C2 key d H1 H2) as (pl & E). cbn [fst]. subst key. destruct pl; cbn [In]; tauto.
    - intros H. assert (X : exists pl, x = array_name sel pl) by (cbn [In] in H; destruct H as [<-|[<-|[<-|[]]]]; eauto). destruct X as (pl & ->). apply in_map_iff. eexists (_, _). split; [reflexivity|]. apply M. apply own. }
  assert (V : forall key d, In (key, d) L3 -> forall pl, key = array_name sel pl -> d = {| values := Mat (map (fun i => a i :: v pl i) (seq 0 n)); unit_of := u |}).
  { intros key d H pl ->. apply M in H as ((H & _) & _). pose proof (H5Props.find_in _ _ _ U H) as F1. pose proof (H5Props.find_in _ _ _ U (C1 pl)) as F2. congruence. }
  clearbody L3. destruct L3 as [|(k1, d1) [|(k2, d2) [|(k3, d3) [|]]]]; try discriminate K. cbn [map fst] in K. injection K as K1 K2 K3. cbn [map snd].
  rewrite (V k1 d1 ltac:(cbn; tauto) XY K1), (V k2 d2 ltac:(cbn; tauto) XZ K2), (V k3 d3 ltac:(cbn; tauto) YZ K3). reflexivity.
Qed.
Lemma gather_three h info_line sel u n a v kept : accepted h info_line -> NoDup (map fst (datasets h)) -> crossing h sel u n a v ->
  exists fr, gather (fst (soec_load h [])) sel kept = inl fr /\ angles fr = map a (seq 0 n) /\ width fr = 3 * per_plane sel /\ rows fr = map (side v) (seq 0 n) /\ frame_unit fr = u.
Proof.
  intros A U C. pose proof (chosen_three h info_line sel u n a v A U C) as E. destruct C as (N & L & _). unfold gather. rewrite E. cbn [map values matrix_of unit_of].
  assert (Z : seq 0 n <> []) by (destruct n; [lia|discriminate]). assert (COL : forall pl, columns (map (fun i => a i :: v pl i) (seq 0 n)) = per_plane sel).
  { intros pl. destruct (seq 0 n) as [|x l]; [congruence|]. cbn [map columns List.length]. rewrite L. lia. }
  rewrite map_map. cbn [tl].
  rewrite (hstack_step _ _ _ _ (map (fun i => a i :: v XZ i) (seq 0 n))) by (reflexivity || now rewrite !map_length). rewrite combine_map. cbn [tl].
  rewrite (hstack_step _ _ _ _ (map (fun i => a i :: v YZ i) (seq 0 n))) by (reflexivity || now rewrite !map_length). rewrite combine_map. cbn [tl hstack]. rewrite !COL, map_map. cbn [hd].
  eexists. split; [reflexivity|]. cbn [angles width rows frame_unit]. split; [reflexivity|]. split; [lia|]. split; [|reflexivity]. apply map_ext. intros i. unfold side. now rewrite app_assoc.
Qed.

(** * A session *)
Section Session.
Variable complaint : string -> list string -> string.
Variable f : string.
Variable data : list (string * dataset).
Variable choices : list string.
Variable content : string -> string.
Variable cs : list string.
Hypothesis CS : forall sel, In sel cs -> In sel choices /\ sel <> "" /\ forall kept, exists fr, gather data sel kept = inl fr /\ table_of fr sel = (content sel, Done).
Notation base := (CliModel.root f).
Notation talk := (dialogue complaint data choices base).
Lemma soec_save_shows fr sel file w : CliModel.fs w file <> CliModel.Dir -> table_of fr sel = (content sel, Done) ->
  save fr sel file w = (CliModel.Ok tt, {| CliModel.fs := CliModel.update (CliModel.fs w) file (CliModel.File (content sel)); CliModel.screen := CliModel.screen w ++ saved_as file |}).
Proof. intros D E. unfold save, CliModel.bind, CliModel.write. rewrite E. cbn [fst snd]. destruct (CliModel.fs w file) eqn:F; [reflexivity|reflexivity|contradiction]. Qed.
Lemma soec_ask_shows q w : ask q w = (CliModel.Ok tt, {| CliModel.fs := CliModel.fs w; CliModel.screen := CliModel.screen w ++ question q |}).
Proof. reflexivity. Qed.
Lemma soec_echo_shows m w : echo m w = (CliModel.Ok tt, {| CliModel.fs := CliModel.fs w; CliModel.screen := CliModel.screen w ++ message m |}).
Proof. reflexivity. Qed.
Lemma soec_request_shows kept lines sel file w rest : request f (CliModel.fs w) lines sel file -> In sel cs ->
  exists fr said lines', lines = sel :: lines' /\ answered f (CliModel.fs w) lines file said /\ talk (Choosing kept) (lines ++ rest) w = talk (Continuing fr) rest
    {| CliModel.fs := CliModel.update (CliModel.fs w) file (CliModel.File (content sel)); CliModel.screen := CliModel.screen w ++ said ++ question more_question |}.
Proof.
  intros Q IC. destruct (CS sel IC) as (I & N & G). destruct (G kept) as (fr & Ga & E). exists fr.
  assert (FN : CliModel.fs w file <> CliModel.Dir) by (destruct Q as [sel Q|sel y old Q Y|sel n name Q Y Z D]; congruence).
  apply mem_in in I. apply String.eqb_neq in N.
  destruct Q as [sel Q|sel y old Q Y|sel n name Q Y Z D]; cbn [app dialogue]; rewrite N, I, Ga; change (default_name base sel) with (offered f sel); rewrite (bind_ok _ _ _ _ _ (look_shows _ _)); cbv beta.
  - exists (saved_as (offered f sel)), []. split; [reflexivity|]. split; [now apply free|]. rewrite Q; cbv beta; rewrite (bind_ok _ _ _ _ _ (soec_save_shows fr sel _ w FN E)), (bind_ok _ _ _ _ _ (soec_ask_shows _ _)). cbn [CliModel.fs CliModel.screen]. now rewrite <- app_assoc.
  - eexists _, [y]. split; [reflexivity|]. split; [now apply (again f _ sel y old)|]. rewrite Q, (bind_ok _ _ _ _ _ (soec_ask_shows _ _)), (yes_answer y Y). erewrite bind_ok; [|apply soec_save_shows; [exact FN|exact E]]. rewrite (bind_ok _ _ _ _ _ (soec_ask_shows _ _)).
    cbn [CliModel.fs CliModel.screen]. unfold taken. now rewrite <- !app_assoc.
  - eexists _, [n; name]. split; [reflexivity|]. split; [now apply (other f _ sel n name)|]. apply String.eqb_neq in Z.
    destruct (CliModel.fs w (offered f sel)) eqn:F; [contradiction| |];
      rewrite (bind_ok _ _ _ _ _ (soec_ask_shows _ _)), (no_answer n Y), (bind_ok _ _ _ _ _ (soec_ask_shows _ _)), Z; (erewrite bind_ok; [|apply soec_save_shows; [exact FN|exact E]]); rewrite (bind_ok _ _ _ _ _ (soec_ask_shows _ _));
      cbn [CliModel.fs CliModel.screen]; unfold taken; now rewrite <- !app_assoc.
Qed.
Lemma soec_session_shows now lines later : session content cs f now lines later ->
  forall kept w, CliModel.fs w = now -> exists said, conversation content f now lines said /\ talk (Choosing kept) lines w = (CliModel.Ok tt, {| CliModel.fs := later; CliModel.screen := CliModel.screen w ++ said |}).
Proof.
  intros H. induction H as [now lines sel file n I Q N|now lines sel file y more later I Q Y _ IH]; intros kept w <-.
  - destruct (soec_request_shows kept lines sel file w [n] Q I) as (fr & said & lines' & L & A & ->). exists (said ++ question more_question). split; [exact (closing _ f _ _ _ _ n A N)|].
    cbn [dialogue]. now rewrite (no_answer n N).
  - destruct (soec_request_shows kept lines sel file w (y :: more) Q I) as (fr & said & lines' & -> & A & ->). cbn [dialogue]. rewrite (yes_answer y Y), (bind_ok _ _ _ _ _ (soec_echo_shows _ _)), (bind_ok _ _ _ _ _ (soec_ask_shows _ _)).
    cbn [CliModel.fs CliModel.screen]. edestruct (IH (Some fr)) as (s2 & K2 & ->); [reflexivity|]. eexists. split; [exact (continuing _ f _ _ _ _ _ y _ _ A Y K2)|]. cbn [CliModel.screen]. now rewrite <- !app_assoc.
Qed.
End Session.

Section Files.
Variable decode : string -> option h5.
Variable complaint : string -> list string -> string.
Variables (f : string) (w : CliModel.world).
Notation command := (export_main decode complaint f).
(** * A session writes, for each request, the table of the three planes with the angles,
      the numbers and the unit stored; the screen shows the whole conversation. *)
Theorem C99_session bytes h info_line cs (u : string -> string) (n : string -> nat) (a : string -> nat -> R) (v : string -> plane -> nat -> list R) :
  CliModel.fs w f = CliModel.File bytes -> decode bytes = Some h -> accepted h info_line -> NoDup (map fst (datasets h)) ->
  (forall sel, In sel cs -> is_offered h sel /\ crossing h sel (u sel) (n sel) (a sel) (v sel) /\ no_newline (u sel) /\
     (forall i, i < n sel -> narrow_degree (a sel i)) /\ (forall pl i, i < n sel -> Forall narrow (v sel pl i))) ->
  exists texts, (forall sel, In sel cs -> is_polar_table (texts sel) sel (u sel) (map (a sel) (seq 0 (n sel))) (map (side (v sel)) (seq 0 (n sel)))) /\
  forall typed later, session texts cs f (CliModel.fs w) typed later ->
  exists w' said, command typed w = (CliModel.Ok tt, w') /\ CliModel.fs w' = later /\ conversation texts f (CliModel.fs w) typed said /\ CliModel.screen w' = CliModel.screen w ++ greeting info_line ++ said ++ farewell.
Proof.
  intros F D A U H. destruct (loading h info_line A) as (data & e & L & Er & K & _). 
  set (texts := fun sel => fst (soec_write (map (a sel) (seq 0 (n sel))) (3 * per_plane sel) (map (side (v sel)) (seq 0 (n sel))) sel (u sel))). exists texts.
  assert (T : forall sel, In sel cs -> snd (soec_write (map (a sel) (seq 0 (n sel))) (3 * per_plane sel) (map (side (v sel)) (seq 0 (n sel))) sel (u sel)) = Done /\
    is_polar_table (texts sel) sel (u sel) (map (a sel) (seq 0 (n sel))) (map (side (v sel)) (seq 0 (n sel)))).
  { intros sel I. destruct (H sel I) as (O & (C1 & C2 & C3) & Nu & Na & Nv).
    destruct (C77_table (map (a sel) (seq 0 (n sel))) (map (side (v sel)) (seq 0 (n sel))) sel (u sel) (offered_known h sel O) Nu) as (text & E & X).
    - now rewrite !map_length.
    - apply Forall_forall. intros x Hx. apply in_map_iff in Hx as (i & <- & Hi). apply in_seq in Hi. apply Na. lia.
    - apply Forall_forall. intros x Hx. apply in_map_iff in Hx as (i & <- & Hi). apply in_seq in Hi. unfold side. split; [rewrite !app_length, !C2; lia|]. rewrite !Forall_app. repeat split; apply Nv; lia.
    - unfold texts. rewrite E. split; [reflexivity|exact X]. }
  split; [intros sel I; now apply T|]. intros typed later S0. rewrite (runs decode complaint f w bytes h info_line data e typed F D (proj1 A) L Er).
  destruct (soec_session_shows complaint f data (keys e) texts cs) with (now := CliModel.fs w) (lines := typed) (later := later) (kept := @None frame)
    (w := {| CliModel.fs := CliModel.fs w; CliModel.screen := CliModel.screen w ++ greeting info_line |}) as (said & C & E).
  - intros sel I. destruct (H sel I) as (O & C & _). split; [now apply K|]. split; [intros ->; apply offered_known in O; cbn in O; intuition discriminate|]. intros kept.
    destruct (gather_three h info_line sel _ _ _ _ kept A U C) as (fr & G & E1 & E2 & E3 & E4). rewrite L in G. cbn [fst] in G. exists fr. split; [exact G|]. unfold table_of, texts. rewrite E1, E2, E3, E4.
    destruct (T sel I) as (T1 & _). destruct (soec_write _ _ _ _ _) as [t p]. cbn [fst snd] in *. congruence.
  - exact S0.
  - reflexivity.
  - rewrite E. cbn [CliModel.fs CliModel.screen]. eexists _, said. split; [reflexivity|]. cbn [CliModel.fs CliModel.screen]. split; [reflexivity|]. split; [exact C|]. now rewrite <- !app_assoc.
Qed.

(** * Files which cannot be exported: a message or an exception, and nothing changes. *)
Definition tells (v : CliModel.world) (message : string) : Prop := In (CliModel.Error, message) (CliModel.screen v).
Lemma opens bytes typed : CliModel.fs w f = CliModel.File bytes -> exists v0, CliModel.fs v0 = CliModel.fs w /\ (decode bytes = None -> command typed w = (CliModel.Raises "OSError", v0)) /\
  forall h data e m, decode bytes = Some h -> soec_load h [] = (data, e) -> error e = Some m -> command typed w = failure m v0.
Proof.
  intros F. eexists. split; [|split].
  2: intros D. 3: intros h data e m D L E.
  2,3: unfold export_main, CliModel.bind at 1; cbn [CliModel.look]; rewrite F; unfold body, CliModel.bind at 1; unfold highlight at 1, CliModel.echo_highlight at 1, CliModel.bind at 1;
    cbn [negb CliModel.show CliModel.log CliModel.ret]; unfold CliModel.bind at 1; cbn [CliModel.look CliModel.fs]; rewrite F, D; try rewrite L, E; reflexivity.
  reflexivity.
Qed.
Theorem C99_refused typed :
  (CliModel.fs w f = CliModel.Absent -> command typed w = (CliModel.Raises "UsageError", w)) /\
  (CliModel.fs w f = CliModel.Dir -> exists v, command typed w = (CliModel.Ok tt, v) /\ CliModel.fs v = CliModel.fs w /\ tells v ("'" +++ f +++ "' is not a file")) /\
  (forall bytes, CliModel.fs w f = CliModel.File bytes ->
    (decode bytes = None -> exists v, command typed w = (CliModel.Raises "OSError", v) /\ CliModel.fs v = CliModel.fs w) /\
    (forall h, decode bytes = Some h ->
      (info h = None -> exists v, command typed w = (CliModel.Ok tt, v) /\ CliModel.fs v = CliModel.fs w /\ tells v "This does not appear to be a Quantas output file") /\
      (info h <> None -> ~ In "stiffness" (map fst (datasets h)) ->
        exists v, command typed w = (CliModel.Ok tt, v) /\ CliModel.fs v = CliModel.fs w /\ tells v "This does not appear to be a Quantas SOEC output file"))).
Proof.
  unfold tells. split; [|split].
  - intros F. unfold export_main, CliModel.bind at 1. cbn [CliModel.look]. now rewrite F.
  - intros F. unfold export_main, CliModel.bind at 1. cbn [CliModel.look]. rewrite F. unfold body, CliModel.bind at 1. unfold highlight, CliModel.echo_highlight, CliModel.bind at 1.
    cbn [negb CliModel.show CliModel.log CliModel.ret]. unfold CliModel.bind at 1. cbn [CliModel.look CliModel.fs]. rewrite F. eexists. split; [reflexivity|]. split; [reflexivity|].
    cbn [CliModel.screen]. apply in_or_app. right. now left.
  - intros bytes F. destruct (opens bytes typed F) as (v0 & Fv & E1 & E2). split.
    + intros D. exists v0. auto.
    + intros h D. split.
      * intros A. erewrite (E2 h); [|exact D|unfold soec_load; rewrite A; reflexivity|reflexivity]. eexists. split; [reflexivity|]. split; [exact Fv|]. cbn [CliModel.screen]. apply in_or_app. right. now left.
      * intros A B. destruct (info h) as [i|] eqn:AB; [|contradiction]. erewrite (E2 h); [|exact D|unfold soec_load; rewrite AB, (find_none _ _ B); reflexivity|reflexivity].
        eexists. split; [reflexivity|]. split; [exact Fv|]. cbn [CliModel.screen]. apply in_or_app. right. now left.
Qed.

(** * Not every table shows the array it is named after: without such an array, the
      numbers and the unit of the table before are written again under the new title. *)
Lemma offered_differ s t : s <> t -> offered f s <> offered f t.
Proof.
  intros N E. apply N. unfold offered in E. assert (X : forall p a b, p +++ a = p +++ b -> a = b) by (induction p; [trivial|]; intros x y Q; injection Q; auto).
  apply X in E. apply X in E. clear - E. assert (Len : forall s t, s +++ ".dat" = t +++ ".dat" -> s = t); [|now apply Len]. clear.
  assert (R1 : forall p q : string, String.length (p +++ q) = String.length p + String.length q) by (induction p; intros; cbn; auto).
  induction s as [|c s IH]; intros [|d t] Q; [reflexivity| | |].
  - apply (f_equal String.length) in Q. rewrite !R1 in Q. cbn in Q. lia.
  - apply (f_equal String.length) in Q. rewrite !R1 in Q. cbn in Q. lia.
  - injection Q as -> Q. f_equal. now apply IH.
Qed.
Theorem C99_stale_refuted bytes h info_line sel sel' u n a v : CliModel.fs w f = CliModel.File bytes -> decode bytes = Some h -> accepted h info_line -> NoDup (map fst (datasets h)) ->
  In sel ["E"; "LC"; "G"; "Nu"] -> In sel' ["E"; "LC"; "G"; "Nu"] -> sel <> sel' -> crossing h sel u n a v -> no_newline u -> (forall key d, cut h key d -> ~ within sel' key) ->
  CliModel.fs w (offered f sel) = CliModel.Absent -> CliModel.fs w (offered f sel') = CliModel.Absent ->
  (exists w1, command [sel'] w = (CliModel.Raises "UnboundLocalError", w1) /\ CliModel.fs w1 = CliModel.fs w) /\
  exists w2 t t', command [sel; "y"; sel'; "n"] w = (CliModel.Ok tt, w2) /\ CliModel.fs w2 (offered f sel) = CliModel.File t /\ CliModel.fs w2 (offered f sel') = CliModel.File t' /\
    entitled t sel /\ entitled t' sel' /\ nth 3 (lines t') "" = nth 3 (lines t) "" /\ skipn 10 (lines t') = skipn 10 (lines t) /\ List.length (skipn 10 (lines t)) = S n.
Proof.
  intros F D A U I I' N C Nu X Ab Ab'. destruct (loading h info_line A) as (data & e & L & Er & K & D1 & _).
  assert (G : forall kept, gather data sel' kept = match kept with Some fr => inl fr | None => inr "UnboundLocalError" end).
  { intros kept. unfold gather. replace (filter (fun kd => contains sel' (fst kd)) data) with (@nil (string * dataset)); [reflexivity|]. symmetry. assert (Z : forall kd, In kd data -> contains sel' (fst kd) = false).
    { intros (key, d) J. apply contains_out. apply (X key d). now apply D1. } clear - Z. induction data as [|kd l IH]; [reflexivity|]. cbn [filter]. rewrite (Z kd) by now left. apply IH. intros. apply Z. now right. }
  assert (Ne : forall s, In s ["E"; "LC"; "G"; "Nu"] -> String.eqb s "" = false) by (intros s J; cbn in J; decompose [or False] J; subst s; reflexivity).
  assert (Me : forall s, In s ["E"; "LC"; "G"; "Nu"] -> mem s (keys e) = true) by (intros s J; apply mem_in, K; now left).
  assert (Kn : forall s, In s ["E"; "LC"; "G"; "Nu"] -> In s polar_names) by (intros s J; cbn [polar_names In] in *; tauto).
  split.
  - rewrite (runs decode complaint f w bytes h info_line data e _ F D (proj1 A) L Er). cbn [dialogue]. rewrite (Ne sel' I'), (Me sel' I'), G. eexists. split; reflexivity.
  - destruct (gather_three h info_line sel u n a v None A U C) as (fr & G0 & E1 & E2 & E3 & E4). rewrite L in G0. cbn [fst] in G0.
    assert (Ev : even fr) by (unfold even; rewrite E1, E3, !map_length; reflexivity).
    destruct (table_done fr sel (Kn _ I) Ev) as (T1 & T2), (table_done fr sel' (Kn _ I') Ev) as (T3 & T4).
    rewrite (runs decode complaint f w bytes h info_line data e _ F D (proj1 A) L Er). set (w0 := {| CliModel.fs := CliModel.fs w; CliModel.screen := _ |}).
    pose proof (offered_differ sel sel' N) as Df. assert (Df' : offered f sel' <> offered f sel) by congruence.
    cbn [dialogue]. rewrite (Ne sel I), (Me sel I), G0. change (default_name (CliModel.root f) sel) with (offered f sel). rewrite (bind_ok _ _ _ _ _ (look_shows _ w0)). change (CliModel.fs w0) with (CliModel.fs w). rewrite Ab.
    assert (TT : forall s, snd (table_of fr s) = Done -> table_of fr s = ((fun s => fst (table_of fr s)) s, Done)) by (intros s Hs; cbv beta; rewrite <- Hs; apply surjective_pairing).
    assert (W0 : CliModel.fs w0 (offered f sel) <> CliModel.Dir) by (change (CliModel.fs w0) with (CliModel.fs w); congruence).
    rewrite (bind_ok _ _ _ _ _ (soec_save_shows (fun s => fst (table_of fr s)) fr sel (offered f sel) w0 W0 (TT sel T1))).
    rewrite (bind_ok _ _ _ _ _ (soec_ask_shows _ _)). cbn [dialogue]. change (EosFitModel.confirm_answer false "y") with (Some true). cbv iota beta. rewrite (bind_ok _ _ _ _ _ (soec_echo_shows _ _)), (bind_ok _ _ _ _ _ (soec_ask_shows _ _)).
    cbn [dialogue]. rewrite (Ne sel' I'), (Me sel' I'), G. change (default_name (CliModel.root f) sel') with (offered f sel'). rewrite (bind_ok _ _ _ _ _ (look_shows _ _)). cbn [CliModel.fs CliModel.screen].
    change (CliModel.fs w0) with (CliModel.fs w).
    assert (Ab2 : CliModel.update (CliModel.fs w) (offered f sel) (CliModel.File (fst (table_of fr sel))) (offered f sel') = CliModel.Absent).
    { unfold CliModel.update. destruct (String.eqb_spec (offered f sel') (offered f sel)); [contradiction|]. exact Ab'. }
    rewrite Ab2. erewrite bind_ok; [|apply (soec_save_shows (fun s => fst (table_of fr s))); [cbn [CliModel.fs]; rewrite Ab2; discriminate|exact (TT sel' T3)]].
    rewrite (bind_ok _ _ _ _ _ (soec_ask_shows _ _)). cbn [dialogue]. change (EosFitModel.confirm_answer false "n") with (Some false). cbn [CliModel.ret CliModel.fs CliModel.screen].
    eexists _, (fst (table_of fr sel)), (fst (table_of fr sel')). split; [reflexivity|]. cbn [CliModel.fs]. unfold CliModel.update. rewrite String.eqb_refl.
    destruct (String.eqb_spec (offered f sel) (offered f sel')) as [|_]; [contradiction|]. rewrite String.eqb_refl. split; [reflexivity|]. split; [reflexivity|]. split; [exact T2|]. split; [exact T4|].
    assert (Li : forall s, In s ["E"; "LC"; "G"; "Nu"] -> exists k, lines (fst (table_of fr s)) = soec_frame (width fr) k u (soec_lines (angles fr) (rows fr))).
    { intros s J. assert (Ks : exists k, soec_types s = Some k) by (cbn [In] in J; decompose [or False] J; subst s; eexists; reflexivity). destruct Ks as (k & Ks). exists k. unfold table_of. rewrite E4, (soec_written _ _ _ _ _ k Ks Ev). cbn [fst].
      apply (soec_frame_lines _ s); [exact Ks|exact Nu|apply no_newline_soec_lines]. }
    destruct (Li sel I) as (k & ->), (Li sel' I') as (k' & ->). unfold soec_frame. destruct (soec_space (width fr)) as [totw dataw]. cbn [app nth skipn]. split; [reflexivity|]. split; [reflexivity|].
    rewrite app_length, length_soec_lines by exact Ev. rewrite E1, map_length, seq_length. cbn. lia.
Qed.
End Files.

(** * Concrete cases *)
(** A file with cuts of one property only, and one whose cuts differ in length. *)
Definition cut_of (n : nat) : dataset := {| values := Mat (map (fun i => [INR i; 7%R]) (seq 0 n)); unit_of := "GPa" |}.
Definition small_file (m : nat) : h5 :=
  {| info := Some "Quantas"; datasets := [("stiffness", {| values := Mat []; unit_of := "GPa" |}); ("polar_E_xy", cut_of m); ("polar_E_xz", cut_of 2); ("polar_E_yz", cut_of 2)] |}.
Definition small_disk : CliModel.world := {| CliModel.fs := fun p => if String.eqb p "old.hdf5" then CliModel.File "h5" else CliModel.Absent; CliModel.screen := [] |}.
Lemma small_accepted m : accepted (small_file m) "Quantas". Proof. split; [reflexivity|]. now left. Qed.
Lemma small_keys m key d : cut (small_file m) key d -> In key ["polar_E_xy"; "polar_E_xz"; "polar_E_yz"].
Proof. intros (I & W). apply contains_in in W. cbn [small_file datasets In] in I. destruct I as [I|[I|[I|[I|[]]]]]; injection I as <- <-; [discriminate W| | |]; cbn; tauto. Qed.
Example C99_instance_stale : exists w2 t t',
  export_main (fun _ => Some (small_file 2)) (fun _ _ => "") "old.hdf5" ["E"; "y"; "G"; "n"] small_disk = (CliModel.Ok tt, w2) /\ CliModel.fs w2 "old_E.dat" = CliModel.File t /\ CliModel.fs w2 "old_G.dat" = CliModel.File t' /\
  entitled t' "G" /\ skipn 10 (lines t') = skipn 10 (lines t) /\ List.length (skipn 10 (lines t)) = 3.
Proof.
  destruct (C99_stale_refuted (fun _ => Some (small_file 2)) (fun _ _ => "") "old.hdf5" small_disk "h5" (small_file 2) "Quantas" "E" "G" "GPa" 2 INR (fun _ _ => [7%R]) eq_refl eq_refl (small_accepted 2))
    as (_ & w2 & t & t' & A & B & C & _ & D & _ & E & G).
  - cbn. repeat (constructor; [cbn [In]; intros X; decompose [or False] X; discriminate|]). constructor.
  - cbn. tauto.
  - cbn. tauto.
  - discriminate.
  - split; [lia|]. split; [reflexivity|]. split; [intros []; cbn; tauto|]. intros key d K _. apply small_keys in K. cbn [In] in K. destruct K as [<-|[<-|[<-|[]]]]; [exists XY|exists XZ|exists YZ]; reflexivity.
  - reflexivity.
  - intros key d K W. apply small_keys in K. apply contains_in in W. cbn [In] in K. destruct K as [<-|[<-|[<-|[]]]]; discriminate W.
  - reflexivity.
  - reflexivity.
  - exists w2, t, t'. auto 10.
Qed.
(** The endings other than the ordinary one do happen. *)
Example C99_instance_endings : let run m typed := fst (export_main (fun _ => Some (small_file m)) (fun _ _ => "") "old.hdf5" typed small_disk) in
  run 3 ["E"] = CliModel.Raises "ValueError" /\ run 2 ["G"] = CliModel.Raises "UnboundLocalError" /\ run 2 ["waves"] = CliModel.Raises "Abort" /\ run 2 [] = CliModel.Raises "Abort".
Proof. repeat split; vm_compute; reflexivity. Qed.

Print Assumptions C99_session.
Print Assumptions C99_refused.
Print Assumptions C99_stale_refuted.
