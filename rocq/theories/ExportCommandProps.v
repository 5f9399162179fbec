(** C98: `quantas export ha FILE` and `quantas export qha FILE`, from the result file
    and the lines typed to the tables. *)
From Coq Require Import Reals String Ascii List Bool Arith ZArith Lia Permutation.
From Verif Require CliModel CliProps CitationsModel EosFitModel.
From Verif Require Import Py DecimalModel DecimalProofs FormatModel FormatProofs YamlSpec TableModel TableProofs TableProps StoreModel SoecTableModel H5Model H5Props HaCommandProps ExportCommandModel.
Import ListNotations.
Open Scope string_scope.
Open Scope list_scope.
Open Scope nat_scope.

(** * What the user types, and what becomes of the files *)
Definition files := string -> CliModel.node.
Definition yes (s : string) : Prop := In s ["y"; "Y"; "yes"; "Yes"; "YES"].
Definition no (s : string) : Prop := In s [""; "n"; "N"; "no"; "No"; "NO"].
(** The name offered for a table: that of the result file, without its extension. *)
Definition offered (f sel : string) : string := CliModel.root f +++ "_" +++ sel +++ ".dat".
(** Asking for a table: lines typed, table, file. The name offered is used if it is
    free, or if the user agrees; otherwise they type another. *)
Inductive request (f : string) (now : files) : list string -> string -> string -> Prop :=
| as_offered sel : now (offered f sel) = CliModel.Absent -> request f now [sel] sel (offered f sel)
| replaced sel y old : now (offered f sel) = CliModel.File old -> yes y -> request f now [sel; y] sel (offered f sel)
| elsewhere sel n name : now (offered f sel) <> CliModel.Absent -> no n -> name <> "" -> now name <> CliModel.Dir -> request f now [sel; n; name] sel name.
(** A session: requests for some of the choices, each followed by yes, the last by no. *)
Inductive session (content : string -> string) (choices : list string) (f : string) : files -> list string -> files -> Prop :=
| stops now lines sel file n : In sel choices -> request f now lines sel file -> no n ->
    session content choices f now (lines ++ [n]) (CliModel.update now file (CliModel.File (content sel)))
| goes_on now lines sel file y more later : In sel choices -> request f now lines sel file -> yes y ->
    session content choices f (CliModel.update now file (CliModel.File (content sel))) more later ->
    session content choices f now (lines ++ y :: more) later.

(** The text of a table: g in unit u for all T and P, whose heads are th and yh. *)
Definition printed (adim : bool) (text : string) (T : list R) (th : string) (P : list R) (yh : string) (g : nat -> nat -> R) (name u : string) : Prop :=
  exists rows, is_table text adim T th P yh rows name u /\
    List.length rows = List.length T /\ forall i, i < List.length T -> List.length (nth i rows []) = List.length P /\ forall j, j < List.length P -> nth j (nth i rows []) 0%R = g i j.

(** ** Proofs *)
Lemma yes_answer y : yes y -> EosFitModel.confirm_answer false y = Some true.
Proof. intros H. repeat (destruct H as [<-|H]; [reflexivity|]). destruct H. Qed.
Lemma no_answer n : no n -> EosFitModel.confirm_answer false n = Some false.
Proof. intros H. repeat (destruct H as [<-|H]; [reflexivity|]). destruct H. Qed.
Lemma mem_in s l : mem s l = true <-> In s l.
Proof.
  unfold mem. rewrite existsb_exists. split.
  - intros (x & H & E). apply String.eqb_eq in E. now subst.
  - intros H. exists s. split; [exact H|apply String.eqb_refl].
Qed.
Lemma find_in {A} key (l : list (string * A)) d : find key l = Some d -> In (key, d) l.
Proof. induction l as [|(k', a) l IH]; [discriminate|]. cbn [find]. destruct (String.eqb_spec key k') as [->|]; [intros [= ->]; now left|right; now apply IH]. Qed.
Lemma in_find {A} key (l : list (string * A)) : In key (map fst l) -> exists d, find key l = Some d.
Proof.
  induction l as [|(k', a) l IH]; [intros []|]. cbn [map fst find]. destruct (String.eqb_spec key k') as [->|N]; [eauto|]. intros [E|H]; [congruence|now apply IH].
Qed.

Section Command.
Variable decode : string -> option result_file.
Variable complaint : string -> list string -> string.
Variable k : flavour.
Variable f : string.

(** The dialogue with a loaded file. *)
Section Dialogue.
Variable l : loaded.
Notation base := (CliModel.root f).
Notation content := (fun sel => fst (table_of k l sel)).
Notation talk := (dialogue complaint k l base).
Lemma save_done sel file w : CliModel.fs w file <> CliModel.Dir -> snd (table_of k l sel) = Done ->
  exists v, save k l sel file w = (CliModel.Ok tt, v) /\ CliModel.fs v = CliModel.update (CliModel.fs w) file (CliModel.File (content sel)).
Proof.
  intros D E. unfold save, CliModel.bind, CliModel.write. rewrite E.
  destruct (CliModel.fs w file) eqn:F; [| |contradiction]; eexists; (split; [reflexivity|reflexivity]).
Qed.
Lemma bind_ok {A B} (m : CliModel.M A) (g : A -> CliModel.M B) w a v : m w = (CliModel.Ok a, v) -> CliModel.bind m g w = g a v.
Proof. intros E. unfold CliModel.bind. now rewrite E. Qed.
Lemma asked w question : exists v, ask question w = (CliModel.Ok tt, v) /\ CliModel.fs v = CliModel.fs w.
Proof. eexists. split; reflexivity. Qed.
Lemma echoed w msg : exists v, echo msg w = (CliModel.Ok tt, v) /\ CliModel.fs v = CliModel.fs w.
Proof. eexists. split; reflexivity. Qed.
Lemma requested lines sel file w rest : request f (CliModel.fs w) lines sel file -> In sel (l_keys l) -> sel <> "" -> snd (table_of k l sel) = Done ->
  exists v, talk Choosing (lines ++ rest) w = talk Continuing rest v /\ CliModel.fs v = CliModel.update (CliModel.fs w) file (CliModel.File (content sel)).
Proof.
  intros Q I N E. assert (FN : CliModel.fs w file <> CliModel.Dir) by (destruct Q as [sel Q|sel y old Q Y|sel n name Q Y Z D]; congruence).
  apply mem_in in I. apply String.eqb_neq in N.
  destruct Q as [sel Q|sel y old Q Y|sel n name Q Y Z D]; cbn [app dialogue]; rewrite N, I; (erewrite bind_ok; [|reflexivity]); cbv beta.
  - change (default_name base sel) with (offered f sel). rewrite Q. destruct (save_done sel (offered f sel) w FN E) as (v1 & S1 & S2). rewrite (bind_ok _ _ _ _ _ S1).
    destruct (asked v1 more_question) as (v2 & A1 & A2). rewrite (bind_ok _ _ _ _ _ A1). exists v2. split; [reflexivity|]. congruence.
  - change (default_name base sel) with (offered f sel). rewrite Q. destruct (asked w (overwrite_question (offered f sel))) as (v0 & B1 & B2). rewrite (bind_ok _ _ _ _ _ B1).
    rewrite (yes_answer y Y). destruct (save_done sel (offered f sel) v0) as (v1 & S1 & S2); [congruence|exact E|]. rewrite (bind_ok _ _ _ _ _ S1).
    destruct (asked v1 more_question) as (v2 & A1 & A2). rewrite (bind_ok _ _ _ _ _ A1). exists v2. split; [reflexivity|]. congruence.
  - change (default_name base sel) with (offered f sel). destruct (asked w (overwrite_question (offered f sel))) as (v0 & B1 & B2).
    apply String.eqb_neq in Z.
    assert (G : exists v, CliModel.bind (ask (overwrite_question (offered f sel))) (fun _ =>
      match EosFitModel.confirm_answer false n with
      | Some true => CliModel.bind (save k l sel (default_name base sel)) (fun _ => CliModel.bind (ask more_question) (fun _ => talk Continuing (name :: rest)))
      | Some false => CliModel.bind (ask name_question) (fun _ => if String.eqb name "" then CliModel.bind (ask name_question) (fun _ => talk (Naming sel) rest)
          else CliModel.bind (save k l sel name) (fun _ => CliModel.bind (ask more_question) (fun _ => talk Continuing rest)))
      | None => CliModel.bind (echo "Error: invalid input") (fun _ => CliModel.bind (ask (overwrite_question (default_name base sel))) (fun _ => talk (Overwriting sel) (name :: rest)))
      end) w = talk Continuing rest v /\ CliModel.fs v = CliModel.update (CliModel.fs w) name (CliModel.File (content sel))).
    { rewrite (bind_ok _ _ _ _ _ B1), (no_answer n Y). destruct (asked v0 name_question) as (v1 & C1 & C2). rewrite (bind_ok _ _ _ _ _ C1), Z.
      destruct (save_done sel name v1) as (v2 & S1 & S2); [congruence|exact E|]. rewrite (bind_ok _ _ _ _ _ S1).
      destruct (asked v2 more_question) as (v3 & A1 & A2). rewrite (bind_ok _ _ _ _ _ A1). exists v3. split; [reflexivity|]. congruence. }
    destruct (CliModel.fs w (offered f sel)); [contradiction|exact G|exact G].
Qed.
Lemma conversed choices now lines later : session content choices f now lines later -> (forall sel, In sel choices -> In sel (l_keys l) /\ sel <> "" /\ snd (table_of k l sel) = Done) ->
  forall w, CliModel.fs w = now -> exists v, talk Choosing lines w = (CliModel.Ok tt, v) /\ CliModel.fs v = later.
Proof.
  intros H C. induction H as [now lines sel file n I Q N|now lines sel file y more later I Q Y _ IH]; intros w <-; destruct (C sel I) as (C1 & C2 & C3).
  - destruct (requested lines sel file w [n] Q C1 C2 C3) as (v & -> & F). exists v. cbn [dialogue]. rewrite (no_answer n N). split; [reflexivity|exact F].
  - destruct (requested lines sel file w (y :: more) Q C1 C2 C3) as (v & -> & F). cbn [dialogue]. rewrite (yes_answer y Y).
    destruct (echoed v "") as (v1 & A1 & A2). rewrite (bind_ok _ _ _ _ _ A1). destruct (asked v1 choice_question) as (v2 & B1 & B2). rewrite (bind_ok _ _ _ _ _ B1).
    apply IH. congruence.
Qed.
End Dialogue.

(** The whole command on a file which can be loaded. *)
Lemma starts h l bytes typed w r v : CliModel.fs w f = CliModel.File bytes -> decode bytes = Some h -> load k h = Loaded l ->
  (forall w', CliModel.fs w' = CliModel.fs w -> dialogue complaint k l (CliModel.root f) Choosing typed w' = (r w', v w')) ->
  exists w' v', CliModel.fs w' = CliModel.fs w /\ CliModel.fs v' = CliModel.fs (v w') /\ export_main decode complaint k f typed w = (r w', v').
Proof.
  intros F D L H. unfold export_main. erewrite bind_ok; [|reflexivity]. cbv beta. rewrite F. unfold body.
  assert (HI : exists w1, highlight CitationsModel.quantas_title w = (CliModel.Ok tt, w1) /\ CliModel.fs w1 = CliModel.fs w) by (eexists; split; reflexivity).
  destruct HI as (w1 & H1 & H2). rewrite (bind_ok _ _ _ _ _ H1). erewrite bind_ok; [|reflexivity]. cbv beta. rewrite H2, F, D, L.
  unfold run. destruct (echoed w1 (l_info l)) as (w2 & A1 & A2). destruct (echoed w2 "") as (w3 & B1 & B2). destruct (asked w3 choice_question) as (w4 & C1 & C2).
  set (rn := CliModel.bind (echo (l_info l)) _). assert (RN : rn w1 = (r w4, v w4)).
  { unfold rn. rewrite (bind_ok _ _ _ _ _ A1), (bind_ok _ _ _ _ _ B1), (bind_ok _ _ _ _ _ C1). apply H. congruence. }
  exists w4. unfold CliModel.bind at 1. rewrite RN. destruct (r w4) as [[]|e].
  - eexists. split; [congruence|]. split; [|reflexivity]. reflexivity.
  - eexists. split; [congruence|]. split; [|reflexivity]. reflexivity.
Qed.
Lemma loads h text T tu P pu : documented h -> about h = Some text -> vector h "T" tu T -> vector h (second k) pu P ->
  load k h = Loaded {| l_info := text; l_x := {| values := Vec T; unit_of := tu |}; l_y := {| values := Vec P; unit_of := pu |}; l_keys := other_keys k h; l_data := array_unit h |}.
Proof.
  intros (_ & D) A (d1 & F1 & C1 & U1) (d2 & F2 & C2 & U2). unfold load. rewrite A. unfold array_unit at 1 2. rewrite F1, U1, F2, U2, C1, C2.
  replace (forallb _ _) with true; [reflexivity|]. symmetry. apply forallb_forall. intros key H. unfold other_keys in H. apply filter_In in H as (H & _).
  apply (Permutation_in _ (Permutation_map fst (by_name_perm (named h)))) in H. apply in_find in H as (d & H). unfold array_unit. rewrite H.
  destruct (D key d (find_in _ _ _ H)) as (u & ->). reflexivity.
Qed.
Lemma offered_key h name unit n m g : HaCommandProps.table h name unit n m g -> name <> "T" -> name <> second k -> In name (other_keys k h).
Proof.
  intros (d & rows & E & _) N1 N2. unfold other_keys. apply filter_In. split.
  - apply (Permutation_in _ (Permutation_sym (Permutation_map fst (by_name_perm (named h))))). apply (in_map fst) with (x := (name, d)). now apply find_in.
  - apply String.eqb_neq in N1, N2. now rewrite N1, N2.
Qed.
End Command.
