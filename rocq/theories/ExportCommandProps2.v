(** C98: what an export session does, for the expected answers and for any. *)
From Coq Require Import Reals String Ascii List Bool Arith ZArith Lia Permutation.
From Verif Require CliModel CliProps CitationsModel EosFitModel.
From Verif Require Import Py DecimalModel DecimalProofs FormatModel FormatProofs YamlSpec TableModel TableProofs TableProps StoreModel SoecTableModel H5Model H5Props HaCommandProps ExportCommandModel ExportCommandProps.
Import ListNotations.
Open Scope string_scope.
Open Scope list_scope.
Open Scope nat_scope.

(** * What became of the files, whatever was typed *)
Definition agrees (t : string) : Prop := In (strip (lower t)) ["y"; "yes"].
Definition declines (t : string) : Prop := In (strip (lower t)) [""; "n"; "no"].
Definition unclear (t : string) : Prop := ~ agrees t /\ ~ declines t.
(** The name of the table was typed, and the next clear answer was yes. *)
Definition agreed (typed : list string) (sel : string) : Prop :=
  exists a junk y b, typed = a ++ sel :: junk ++ y :: b /\ Forall unclear junk /\ agrees y.
(** The name of the table was typed, the next clear answer was no, and then this was
    the first line which is not empty. *)
Definition renamed (typed : list string) (sel name : string) : Prop :=
  exists a junk n blanks b, typed = a ++ sel :: junk ++ n :: blanks ++ name :: b /\ Forall unclear junk /\ declines n /\ Forall (eq "") blanks /\ name <> "".
Definition placed (f : string) (typed : list string) (now : files) (sel file : string) : Prop :=
  (file = offered f sel /\ now file = CliModel.Absent /\ In sel typed) \/
  (file = offered f sel /\ (exists old, now file = CliModel.File old) /\ agreed typed sel) \/
  (now (offered f sel) <> CliModel.Absent /\ now file <> CliModel.Dir /\ renamed typed sel file).
Inductive changes (content : string -> string) (h : result_file) (f : string) (typed : list string) : files -> list (string * string) -> files -> Prop :=
| untouched now : changes content h f typed now [] now
| table_saved now sel file more later : In sel (map fst (named h)) -> placed f typed now sel file ->
    changes content h f typed (CliModel.update now file (CliModel.File (content sel))) more later ->
    changes content h f typed now ((sel, file) :: more) later.

(** ** Proofs *)
Lemma confirm_cases t : (EosFitModel.confirm_answer false t = Some true /\ agrees t) \/ (EosFitModel.confirm_answer false t = Some false /\ declines t) \/ (EosFitModel.confirm_answer false t = None /\ unclear t).
Proof.
  unfold EosFitModel.confirm_answer, unclear, agrees, declines. set (v := strip (lower t)). unfold mem. cbn [existsb In].
  destruct (String.eqb_spec v "y") as [E|N1]; [left; split; [reflexivity|]; auto|]. destruct (String.eqb_spec v "yes") as [E|N2]; [left; split; [reflexivity|]; auto|].
  destruct (String.eqb_spec v "n") as [E|N3]; [right; left; split; [reflexivity|]; auto|]. destruct (String.eqb_spec v "no") as [E|N4]; [right; left; split; [reflexivity|]; auto|].
  destruct (String.eqb_spec v "") as [E|N5]; [right; left; split; [reflexivity|]; auto|]. right; right. split; [reflexivity|]. split; intros H; repeat (destruct H as [H|H]; [congruence|]); exact H.
Qed.

Section Any.
Variable decode : string -> option result_file.
Variable complaint : string -> list string -> string.
Variable k : flavour.
Variable f : string.
Variable h : result_file.
Variable l : loaded.
Hypothesis Hk : forall sel, In sel (l_keys l) -> In sel (map fst (named h)).
Notation base := (CliModel.root f).
Notation content := (fun sel => fst (table_of k l sel)).
Notation talk := (dialogue complaint k l base).

Definition where_ (pre : list string) (now : files) (at_ : stage) : Prop :=
  match at_ with
  | Choosing | Continuing => True
  | Overwriting sel => In sel (l_keys l) /\ now (offered f sel) <> CliModel.Absent /\ exists a junk, pre = a ++ sel :: junk /\ Forall unclear junk
  | Naming sel => In sel (l_keys l) /\ now (offered f sel) <> CliModel.Absent /\
      exists a junk n blanks, pre = a ++ sel :: junk ++ n :: blanks /\ Forall unclear junk /\ declines n /\ Forall (eq "") blanks
  end.
Definition ending_of (typed : list string) (r : CliModel.result unit) : Prop :=
  r = CliModel.Ok tt \/ r = CliModel.Raises "Abort" \/ r = CliModel.Raises "IsADirectoryError" \/
  exists sel e, In sel typed /\ In sel (l_keys l) /\ snd (table_of k l sel) = Raised e /\ r = CliModel.Raises e.
Notation fine typed now m := (exists r v saved, m = (r, v) /\ changes content h f typed now saved (CliModel.fs v) /\ ending_of typed r).
Lemma saves typed sel file w (go : CliModel.M unit) : In sel typed -> In sel (l_keys l) -> (CliModel.fs w file <> CliModel.Dir -> placed f typed (CliModel.fs w) sel file) ->
  (forall v, fine typed (CliModel.fs v) (go v)) ->
  fine typed (CliModel.fs w) (CliModel.bind (save k l sel file) (fun _ => CliModel.bind (ask more_question) (fun _ => go)) w).
Proof.
  intros I K P G. unfold save, CliModel.bind, CliModel.write.
  assert (X : CliModel.fs w file <> CliModel.Dir ->
    fine typed (CliModel.fs w) (match (match snd (table_of k l sel) with Done => echo ("Data successfully exported to '" +++ file +++ "'") | Raised e => CliModel.raise e end)
       {| CliModel.fs := CliModel.update (CliModel.fs w) file (CliModel.File (content sel)); CliModel.screen := CliModel.screen w |} with
     | (CliModel.Ok _, v) => match ask more_question v with (CliModel.Ok _, v0) => go v0 | (CliModel.Raises e, v0) => (CliModel.Raises e, v0) end
     | (CliModel.Raises e, v) => (CliModel.Raises e, v) end)).
  { intros D. specialize (P D). destruct (snd (table_of k l sel)) as [|e] eqn:E.
    - set (w1 := {| CliModel.fs := _; CliModel.screen := _ |}). destruct (echoed w1 ("Data successfully exported to '" +++ file +++ "'")) as (w2 & -> & A2).
      destruct (asked w2 more_question) as (w3 & -> & A3). destruct (G w3) as (r & v & saved & E1 & E2 & E3). exists r, v, ((sel, file) :: saved). split; [exact E1|]. split; [|exact E3].
      apply table_saved; [now apply Hk|exact P|]. rewrite A3, A2 in E2. exact E2.
    - eexists _, _, [(sel, file)]. split; [reflexivity|]. split; [|right; right; right; eauto 8]. apply table_saved; [now apply Hk|exact P|]. apply untouched. }
  destruct (CliModel.fs w file) eqn:F; [apply X; discriminate|apply X; discriminate|].
  eexists _, _, []. split; [reflexivity|]. split; [apply untouched|]. right; right; left. reflexivity.
Qed.
Lemma any_answer typed rest : forall pre at_ w, typed = pre ++ rest -> where_ pre (CliModel.fs w) at_ -> fine typed (CliModel.fs w) (talk at_ rest w).
Proof.
  induction rest as [|t rest IH]; intros pre at_ w E W.
  { exists (CliModel.Raises "Abort"), w, []. split; [now destruct at_|]. split; [apply untouched|]. right; left. reflexivity. }
  assert (T : In t typed) by (rewrite E; apply in_or_app; right; now left).
  assert (E' : typed = (pre ++ [t]) ++ rest) by (rewrite <- app_assoc; exact E).
  assert (Ask : forall question at' v0, CliModel.fs v0 = CliModel.fs w -> where_ (pre ++ [t]) (CliModel.fs w) at' -> fine typed (CliModel.fs w) (CliModel.bind (ask question) (fun _ => talk at' rest) v0)).
  { intros q at' v0 F0 W'. destruct (asked v0 q) as (v1 & A1 & A2). rewrite (bind_ok _ _ _ _ _ A1). destruct (IH (pre ++ [t]) at' v1 E') as (r & v & sv & X1 & X2 & X3); [now rewrite A2, F0|].
    exists r, v, sv. rewrite A2, F0 in X2. auto. }
  assert (Say : forall msg question at', where_ (pre ++ [t]) (CliModel.fs w) at' -> fine typed (CliModel.fs w) (CliModel.bind (echo msg) (fun _ => CliModel.bind (ask question) (fun _ => talk at' rest)) w)).
  { intros msg q at' W'. destruct (echoed w msg) as (v0 & A1 & A2). rewrite (bind_ok _ _ _ _ _ A1). apply Ask; [exact A2|exact W']. }
  assert (Go : forall v, fine typed (CliModel.fs v) (talk Continuing rest v)) by (intros v; apply (IH (pre ++ [t]) Continuing v E' I)).
  destruct at_ as [|sel|sel|]; cbn [dialogue where_] in *.
  - destruct (String.eqb_spec t "") as [->|N]; [apply Ask; [reflexivity|exact I]|]. destruct (mem t (l_keys l)) eqn:M; [|apply Say; exact I].
    apply mem_in in M. erewrite bind_ok; [|reflexivity]. cbv beta. change (default_name base t) with (offered f t).
    assert (O : CliModel.fs w (offered f t) <> CliModel.Absent -> fine typed (CliModel.fs w) (CliModel.bind (ask (overwrite_question (offered f t))) (fun _ => talk (Overwriting t) rest) w)).
    { intros A. apply Ask; [reflexivity|]. cbn [where_]. split; [exact M|]. split; [exact A|]. exists pre, []. split; [reflexivity|constructor]. }
    destruct (CliModel.fs w (offered f t)) eqn:F; [|apply O; discriminate|apply O; discriminate].
    apply saves; [exact T|exact M| |exact Go]. intros _. left. split; [reflexivity|]. split; [exact F|exact T].
  - destruct W as (K & A & a & junk & Ep & U). assert (S0 : In sel typed) by (rewrite E, Ep; apply in_or_app; left; apply in_or_app; right; now left).
    destruct (confirm_cases t) as [(-> & Y)|[(-> & N)|(-> & J)]].
    + apply saves; [exact S0|exact K| |exact Go]. change (default_name base sel) with (offered f sel). intros D. right; left. split; [reflexivity|]. split.
      * destruct (CliModel.fs w (offered f sel)); [contradiction|eauto|contradiction].
      * exists a, junk, t, rest. split; [rewrite E, Ep, <- app_assoc; reflexivity|auto].
    + apply Ask; [reflexivity|]. cbn [where_]. split; [exact K|]. split; [exact A|]. exists a, junk, t, []. split; [rewrite Ep, <- app_assoc; reflexivity|auto].
    + apply Say. cbn [where_]. split; [exact K|]. split; [exact A|]. exists a, (junk ++ [t]). split; [rewrite Ep, <- app_assoc; reflexivity|]. apply Forall_app. auto.
  - destruct W as (K & A & a & junk & n & blanks & Ep & U & Dn & B). assert (S0 : In sel typed) by (rewrite E, Ep; apply in_or_app; left; apply in_or_app; right; now left).
    destruct (String.eqb_spec t "") as [->|N].
    + apply Ask; [reflexivity|]. cbn [where_]. split; [exact K|]. split; [exact A|]. exists a, junk, n, (blanks ++ [""]). split; [|split; [exact U|split; [exact Dn|apply Forall_app; auto]]].
      rewrite Ep. rewrite <- app_assoc. cbn [app]. rewrite <- app_assoc. reflexivity.
    + apply saves; [exact S0|exact K| |exact Go]. intros D. right; right. split; [exact A|]. split; [exact D|]. exists a, junk, n, blanks, rest. split; [|auto].
      rewrite E, Ep. rewrite <- app_assoc. cbn [app]. rewrite <- app_assoc. reflexivity.
  - destruct (confirm_cases t) as [(-> & Y)|[(-> & N)|(-> & J)]].
    + apply Say. exact I.
    + exists (CliModel.Ok tt), w, []. split; [reflexivity|]. split; [apply untouched|]. left. reflexivity.
    + apply Say. exact I.
Qed.
Lemma any_command bytes w typed : CliModel.fs w f = CliModel.File bytes -> decode bytes = Some h -> load k h = Loaded l ->
  fine typed (CliModel.fs w) (export_main decode complaint k f typed w).
Proof.
  intros F D L.
  destruct (starts decode complaint k f h l bytes typed w (fun w' => fst (talk Choosing typed w')) (fun w' => snd (talk Choosing typed w')) F D L) as (w' & v' & A1 & A2 & A3).
  { intros w' _. apply surjective_pairing. }
  destruct (any_answer typed typed [] Choosing w' eq_refl I) as (r & v & saved & B1 & B2 & B3). rewrite B1 in A2, A3. cbn [fst snd] in A2, A3.
  exists r, v', saved. split; [exact A3|]. split; [|exact B3]. rewrite A2, <- A1. exact B2.
Qed.
End Any.

(** * The two commands *)
Section Files.
Variable decode : string -> option result_file.
Variable complaint : string -> list string -> string.
Variables (f bytes : string) (h : result_file) (w : CliModel.world).
Hypothesis Fi : CliModel.fs w f = CliModel.File bytes.
Hypothesis De : decode bytes = Some h.
Hypothesis Do : documented h.
Variables (T : list R) (tu : string).
Hypothesis VT : vector h "T" tu T.
Hypothesis Nt : no_newline tu.
Definition tabulated (names : list string) (n m : nat) : Prop := forall name, In name names -> exists u g, HaCommandProps.table h name u n m g /\ no_newline u.
Lemma table_rows_ok name u n m g : HaCommandProps.table h name u n m g -> exists d rows, find name (named h) = Some d /\ content d = Mat rows /\ find "unit" (attributes d) = Some u /\
  List.length rows = n /\ Forall (fun r => List.length r = m) rows /\ forall i, i < n -> List.length (nth i rows []) = m /\ forall j, j < m -> nth j (nth i rows []) 0%R = g i j.
Proof.
  intros (d & rows & A & B & C & L & H). exists d, rows. do 4 (split; [assumption|]). split; [|exact H]. apply Forall_forall. intros r Hr.
  apply (In_nth _ _ []) in Hr as (i & Hi & <-). apply H. lia.
Qed.

Section Qha.
Variables (P : list R) (pu : string).
Hypothesis VP : vector h "P" pu P.
Hypothesis NP : P <> [].
Hypothesis Np : no_newline pu.
Hypothesis TB : tabulated qha_names (List.length T) (List.length P).
Notation command := (export_main decode complaint qha_flavour f).
Notation th := ("T (" +++ tu +++ ")").
Notation ph := ("P (" +++ pu +++ ")").
Definition qha_tables (texts : string -> string) : Prop := forall name u g, In name qha_names -> HaCommandProps.table h name u (List.length T) (List.length P) g -> no_newline u ->
  printed true (texts name) T th P ph g name u.
Lemma qha_loaded : exists l, load qha_flavour h = Loaded l /\ l_keys l = other_keys qha_flavour h /\ (forall sel, In sel qha_names -> In sel (l_keys l) /\ sel <> "" /\ snd (table_of qha_flavour l sel) = Done) /\
  qha_tables (fun sel => fst (table_of qha_flavour l sel)).
Proof.
  destruct Do as ((text & A) & _). eexists. split; [exact (loads qha_flavour h text T tu P pu Do A VT VP)|]. split; [reflexivity|].
  assert (X : forall name u g, In name qha_names -> HaCommandProps.table h name u (List.length T) (List.length P) g -> no_newline u ->
    let r := table_of qha_flavour {| l_info := text; l_x := {| values := Vec T; unit_of := tu |}; l_y := {| values := Vec P; unit_of := pu |}; l_keys := other_keys qha_flavour h; l_data := array_unit h |} name in
    snd r = Done /\ printed true (fst r) T th P ph g name u).
  { intros name u g I TA Nu. destruct (table_rows_ok _ _ _ _ _ TA) as (d & rows & F & C & U & L & Fr & V). cbv zeta. unfold table_of. cbn [l_data l_x l_y values unit_of axis types_of adimensional second qha_flavour].
    unfold array_unit. rewrite F, U. cbn [values unit_of]. rewrite C. destruct (C63_qha_table T P rows name tu pu u I NP L Fr Nt Np Nu) as (D1 & D2). split; [exact D1|]. exists rows. auto. }
  split.
  - intros sel I. destruct (TB sel I) as (u & g & TA & Nu). split; [|split].
    + cbn [l_keys]. apply (offered_key qha_flavour h sel u _ _ g TA); intros ->; vm_compute in I; repeat (destruct I as [I|I]; [discriminate|]); exact I.
    + intros ->. vm_compute in I. repeat (destruct I as [I|I]; [discriminate|]). exact I.
    + exact (proj1 (X sel u g I TA Nu)).
  - intros name u g I TA Nu. exact (proj2 (X name u g I TA Nu)).
Qed.
(** Every table asked for is written, complete, in its file; nothing else changes. *)
Theorem C98_qha_session : exists texts, qha_tables texts /\
  forall typed later, session texts qha_names f (CliModel.fs w) typed later -> exists v, command typed w = (CliModel.Ok tt, v) /\ CliModel.fs v = later.
Proof.
  destruct qha_loaded as (l & L & _ & Q & X). exists (fun sel => fst (table_of qha_flavour l sel)). split; [exact X|]. intros typed later S0.
  destruct (starts decode complaint qha_flavour f h l bytes typed w (fun w' => fst (dialogue complaint qha_flavour l (CliModel.root f) Choosing typed w')) (fun w' => snd (dialogue complaint qha_flavour l (CliModel.root f) Choosing typed w')) Fi De L) as (w' & v' & A1 & A2 & A3).
  { intros w' _. apply surjective_pairing. }
  destruct (conversed complaint qha_flavour f l qha_names (CliModel.fs w) typed later S0 Q w' A1) as (v & B1 & B2). rewrite B1 in A2, A3. exists v'. split; [exact A3|]. now rewrite A2.
Qed.
(** Whatever is typed: the files are changed by complete tables only, at the name
    offered if it is free or the user agrees to replace it, or at the name typed
    after they declined. The session ends, is interrupted by the end of the lines, or
    fails because a name is that of a directory, or because the array chosen is none
    of the tables. *)
Theorem C98_qha_any_answers typed : exists texts r v saved, qha_tables texts /\ command typed w = (r, v) /\ changes texts h f typed (CliModel.fs w) saved (CliModel.fs v) /\
  (r = CliModel.Ok tt \/ r = CliModel.Raises "Abort" \/ r = CliModel.Raises "IsADirectoryError" \/ exists sel, In sel typed /\ In sel (map fst (named h)) /\ ~ In sel qha_names).
Proof.
  destruct qha_loaded as (l & L & K & Q & X). assert (KH : forall sel, In sel (l_keys l) -> In sel (map fst (named h))).
  { intros sel H. rewrite K in H. unfold other_keys in H. apply filter_In in H as (H & _). exact (Permutation_in _ (Permutation_map fst (by_name_perm (named h))) H). }
  destruct (any_command decode complaint qha_flavour f h l KH bytes w typed Fi De L) as (r & v & saved & A1 & A2 & A3). exists (fun sel => fst (table_of qha_flavour l sel)), r, v, saved.
  split; [exact X|]. split; [exact A1|]. split; [exact A2|]. destruct A3 as [A|[A|[A|(sel & e & S1 & S2 & S3 & _)]]]; auto. right; right; right. exists sel. split; [exact S1|]. split; [now apply KH|].
  intros I. destruct (Q sel I) as (_ & _ & D). congruence.
Qed.
(** A name which is typed is not checked: the user can lose the result file itself. *)
Theorem C98_result_lost_refuted sel : In sel qha_names -> CliModel.fs w (offered f sel) <> CliModel.Absent -> f <> "" ->
  exists texts v, qha_tables texts /\ command [sel; "n"; f; "n"] w = (CliModel.Ok tt, v) /\ CliModel.fs v f = CliModel.File (texts sel).
Proof.
  intros I A NF. destruct C98_qha_session as (texts & X & S0). destruct (S0 [sel; "n"; f; "n"] (CliModel.update (CliModel.fs w) f (CliModel.File (texts sel)))) as (v & E & F).
  - apply (stops texts qha_names f (CliModel.fs w) [sel; "n"; f] sel f "n" I); [|cbn; tauto]. apply elsewhere; [exact A|cbn; tauto|exact NF|rewrite Fi; discriminate].
  - exists texts, v. split; [exact X|]. split; [exact E|]. rewrite F. unfold CliModel.update. now rewrite String.eqb_refl.
Qed.
End Qha.

Section Ha.
Variables (V : list R) (vu : string).
Hypothesis VV : vector h "V" vu V.
Hypothesis NV : V <> [].
Hypothesis Nv : no_newline vu.
Hypothesis TB : tabulated ha_names (List.length T) (List.length V).
Notation command := (export_main decode complaint ha_flavour f).
Notation th := ("T (" +++ tu +++ ")").
Notation vh := ("V (" +++ vu +++ "^3)").
Definition ha_tables (texts : string -> string) : Prop := forall name u g, In name ha_names -> HaCommandProps.table h name u (List.length T) (List.length V) g -> no_newline u ->
  printed false (texts name) T th V vh g name u.
Definition ha_load (text : string) : loaded := {| l_info := text; l_x := {| values := Vec T; unit_of := tu |}; l_y := {| values := Vec V; unit_of := vu |}; l_keys := other_keys ha_flavour h; l_data := array_unit h |}.
Lemma ha_loaded : exists text, let l := ha_load text in load ha_flavour h = Loaded l /\ (forall sel, In sel ha_names -> In sel (l_keys l) /\ sel <> "" /\ snd (table_of ha_flavour l sel) = Done) /\
  ha_tables (fun sel => fst (table_of ha_flavour l sel)).
Proof.
  destruct Do as ((text & A) & _). exists text. cbv zeta. split; [exact (loads ha_flavour h text T tu V vu Do A VT VV)|].
  assert (X : forall name u g, In name ha_names -> HaCommandProps.table h name u (List.length T) (List.length V) g -> no_newline u ->
    let r := table_of ha_flavour (ha_load text) name in
    snd r = Done /\ printed false (fst r) T th V vh g name u).
  { intros name u g I TA Nu. destruct (table_rows_ok _ _ _ _ _ TA) as (d & rows & F & C & U & L & Fr & Vv). cbv zeta. unfold table_of, ha_load. cbn [l_data l_x l_y values unit_of axis types_of adimensional second ha_flavour].
    unfold array_unit. rewrite F, U. cbn [values unit_of]. rewrite C. destruct (C63_ha_table T V rows name tu vu u (or_intror I) NV L Fr Nt Nv Nu) as (D1 & D2). split; [exact D1|]. exists rows. auto. }
  split.
  - intros sel I. destruct (TB sel I) as (u & g & TA & Nu). split; [|split].
    + cbn [l_keys ha_load]. apply (offered_key ha_flavour h sel u _ _ g TA); intros ->; vm_compute in I; repeat (destruct I as [I|I]; [discriminate|]); exact I.
    + intros ->. vm_compute in I. repeat (destruct I as [I|I]; [discriminate|]). exact I.
    + exact (proj1 (X sel u g I TA Nu)).
  - intros name u g I TA Nu. exact (proj2 (X name u g I TA Nu)).
Qed.
Theorem C98_ha_session : exists texts, ha_tables texts /\
  forall typed later, session texts ha_names f (CliModel.fs w) typed later -> exists v, command typed w = (CliModel.Ok tt, v) /\ CliModel.fs v = later.
Proof.
  destruct ha_loaded as (text & L & Q & X). set (l := ha_load text) in *. exists (fun sel => fst (table_of ha_flavour l sel)). split; [exact X|]. intros typed later S0.
  destruct (starts decode complaint ha_flavour f h l bytes typed w (fun w' => fst (dialogue complaint ha_flavour l (CliModel.root f) Choosing typed w')) (fun w' => snd (dialogue complaint ha_flavour l (CliModel.root f) Choosing typed w')) Fi De L) as (w' & v' & A1 & A2 & A3).
  { intros w' _. apply surjective_pairing. }
  destruct (conversed complaint ha_flavour f l ha_names (CliModel.fs w) typed later S0 Q w' A1) as (v & B1 & B2). rewrite B1 in A2, A3. exists v'. split; [exact A3|]. now rewrite A2.
Qed.
Theorem C98_ha_any_answers typed : exists texts r v saved, ha_tables texts /\ command typed w = (r, v) /\ changes texts h f typed (CliModel.fs w) saved (CliModel.fs v) /\
  (r = CliModel.Ok tt \/ r = CliModel.Raises "Abort" \/ r = CliModel.Raises "IsADirectoryError" \/ exists sel, In sel typed /\ In sel (map fst (named h)) /\ ~ In sel ha_names).
Proof.
  destruct ha_loaded as (text & L & Q & X). set (l := ha_load text) in *. assert (KH : forall sel, In sel (l_keys l) -> In sel (map fst (named h))).
  { intros sel H. cbn [l l_keys ha_load] in H. unfold other_keys in H. apply filter_In in H as (H & _). exact (Permutation_in _ (Permutation_map fst (by_name_perm (named h))) H). }
  destruct (any_command decode complaint ha_flavour f h l KH bytes w typed Fi De L) as (r & v & saved & A1 & A2 & A3). exists (fun sel => fst (table_of ha_flavour l sel)), r, v, saved.
  split; [exact X|]. split; [exact A1|]. split; [exact A2|]. destruct A3 as [A|[A|[A|(sel & e & S1 & S2 & S3 & _)]]]; auto. right; right; right. exists sel. split; [exact S1|]. split; [now apply KH|].
  intros I. destruct (Q sel I) as (_ & _ & D). congruence.
Qed.
(** The static energies are offered, and their table cannot be written: it breaks off
    with an IndexError after the first temperature. *)
Theorem C98_ha_static_refuted ens eu : vector h "U0" eu ens -> T <> [] -> CliModel.fs w (offered f "U0") = CliModel.Absent ->
  exists v text, command ["U0"] w = (CliModel.Raises "IndexError", v) /\ CliModel.fs v = CliModel.update (CliModel.fs w) (offered f "U0") (CliModel.File text) /\
  exists t before, nth_error T 0 = Some t /\ text = before +++ put_data t Ttype.
Proof.
  intros (d & Fd & Cd & Ud) NT A. destruct ha_loaded as (text & L & _). set (l := ha_load text) in *.
  assert (K : mem "U0" (l_keys l) = true).
  { apply mem_in. cbn [l l_keys ha_load]. unfold other_keys. apply filter_In. split; [|reflexivity].
    apply (Permutation_in _ (Permutation_sym (Permutation_map fst (by_name_perm (named h))))). apply (in_map fst) with (x := ("U0", d)). now apply find_in. }
  destruct T as [|t T'] eqn:ET; [contradiction|].
  assert (TO : snd (table_of ha_flavour l "U0") = Raised "IndexError" /\ exists before, fst (table_of ha_flavour l "U0") = before +++ put_data t Ttype).
  { unfold table_of, l, ha_load. cbn [l_data l_x l_y values unit_of axis types_of adimensional second ha_flavour]. unfold array_unit. rewrite Fd, Ud. cbn [values unit_of]. rewrite Cd, ET.
    apply (C63_vector_fails ha_types false t T' "T" tu V "V" vu ens "U0" eu (mk "Static energy" "E0" Etype) (mk "Temperature" "T" Ttype) {| desc := "Volume"; label := labelled "V (" "^3)"; numstyle := Vtype |}); try reflexivity. exact NV. }
  destruct TO as (TO1 & before & TO2).
  destruct (starts decode complaint ha_flavour f h l bytes ["U0"] w (fun w' => fst (dialogue complaint ha_flavour l (CliModel.root f) Choosing ["U0"] w')) (fun w' => snd (dialogue complaint ha_flavour l (CliModel.root f) Choosing ["U0"] w')) Fi De L) as (w' & v' & A1 & A2 & A3).
  { intros w' _. apply surjective_pairing. }
  assert (DI : exists v0, dialogue complaint ha_flavour l (CliModel.root f) Choosing ["U0"] w' = (CliModel.Raises "IndexError", v0) /\ CliModel.fs v0 = CliModel.update (CliModel.fs w') (offered f "U0") (CliModel.File (fst (table_of ha_flavour l "U0")))).
  { cbn [dialogue]. change (String.eqb "U0" "") with false. cbn iota. rewrite K. unfold CliModel.bind at 1. unfold CliModel.look. change (default_name (CliModel.root f) "U0") with (offered f "U0"). rewrite A1, A.
    unfold CliModel.bind, save, CliModel.bind, CliModel.write. rewrite A1, A, TO1. eexists. split; reflexivity. }
  destruct DI as (v0 & D1 & D2). rewrite D1 in A2, A3. cbn [fst snd] in A2, A3. eexists v', _. split; [exact A3|]. split; [rewrite A2, D2, A1; reflexivity|].
  exists t, before. split; [reflexivity|exact TO2].
Qed.
End Ha.
End Files.

Print Assumptions C98_qha_session.
Print Assumptions C98_qha_any_answers.
Print Assumptions C98_result_lost_refuted.
Print Assumptions C98_ha_session.
Print Assumptions C98_ha_any_answers.
Print Assumptions C98_ha_static_refuted.
