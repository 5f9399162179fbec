(** C93: the log file of a run, from its first line to its last.
    A run is [main] of CliModel with any calculator; what the calculator prints
    is given by its methods. *)
From Coq Require Import String Ascii List Bool Arith Lia.
From Verif Require Import DecimalModel DecimalProofs CliModel CliProofs CliProps CitationsModel.
Import ListNotations.
Open Scope string_scope.
Open Scope list_scope.
Open Scope nat_scope.

(** ** Reading a log *)
(** The text of a list of messages, each on its own line(s). *)
Fixpoint page (l : list string) : string := match l with [] => "" | m :: l => m +++ String newline "" +++ page l end.
(** What a method adds to the log. *)
Definition voice (debug : bool) (e : event) : list string :=
  match e with Say m | SayAlways m | Warn m => [m] | Debug m => if debug then ["Debug: " +++ m] else [] end.
Definition voices (debug : bool) (l : list event) : list string := List.concat (map (voice debug) l).
(** The same messages, with others put in between. *)
Inductive with_others (other : string -> Prop) : list string -> list string -> Prop :=
| wo_nil : with_others other [] []
| wo_same m a b : with_others other a b -> with_others other (m :: a) (m :: b)
| wo_other m a b : other m -> with_others other a b -> with_others other a (m :: b).
Definition debug_line (m : string) : Prop := exists x, m = "Debug: " +++ x.
(** The references at the end of a log. *)
Definition references (t : texts) : list string := [bib_header t; own_citation t; citation t; bib_footer t; finish t].

(** ** Proofs *)
Lemma page_app a b : page (a ++ b) = page a +++ page b.
Proof. induction a as [|m a IH]; cbn [page app]; [reflexivity|]. now rewrite IH, !append_assoc. Qed.
Lemma page_line m : page [m] = line m. Proof. reflexivity. Qed.
Lemma voices_app d a b : voices d (a ++ b) = voices d a ++ voices d b.
Proof. unfold voices. rewrite map_app. apply concat_app. Qed.

Section Log.
Variables (lf : string) (g : string -> node).
Definition written (ms : list string) (v : world) : Prop := fs v = update g lf (File (page ms)).
(** A program which ends with [r] after adding [ms] to the log, changing nothing else. *)
Definition adds {A} (m : M A) (r : result A) (ms : list string) : Prop :=
  forall l v, written l v -> exists v', m v = (r, v') /\ written (l ++ ms) v'.
Lemma adds_ret {A} (a : A) : adds (ret a) (Ok a) [].
Proof. intros l v H. exists v. rewrite app_nil_r. now split. Qed.
Lemma adds_raise {A} e : adds (@raise A e) (Raises e) [].
Proof. intros l v H. exists v. rewrite app_nil_r. now split. Qed.
Lemma adds_bind {A B} (m : M A) (k : A -> M B) a r ms ms' : adds m (Ok a) ms -> adds (k a) r ms' -> adds (bind m k) r (ms ++ ms').
Proof.
  intros H K l v W. destruct (H l v W) as (v1 & E & W1). destruct (K _ v1 W1) as (v2 & E2 & W2).
  exists v2. split; [unfold bind; now rewrite E|]. now rewrite app_assoc.
Qed.
Lemma adds_fail {A B} (m : M A) (k : A -> M B) e ms : adds m (Raises e) ms -> adds (bind m k) (Raises e) ms.
Proof. intros H l v W. destruct (H l v W) as (v1 & E & W1). exists v1. split; [unfold bind; now rewrite E|exact W1]. Qed.
Lemma adds_show k m : adds (show k m) (Ok tt) [].
Proof. intros l v H. eexists. split; [reflexivity|]. rewrite app_nil_r. exact H. Qed.
Lemma adds_log m : adds (log (Some lf) m) (Ok tt) [m].
Proof.
  intros l v H. unfold written in *. unfold log, append. rewrite H, update_same. eexists. split; [reflexivity|]. cbn [fs].
  rewrite update_twice, page_app. reflexivity.
Qed.
Lemma adds_echo m b : adds (echo m (Some lf) b) (Ok tt) [m].
Proof. apply (adds_bind _ _ tt _ [] [m]); [|apply adds_log]. destruct b; [apply adds_ret|apply adds_show]. Qed.
Lemma adds_highlight m b : adds (echo_highlight m (Some lf) b) (Ok tt) [m].
Proof. apply (adds_bind _ _ tt _ [] [m]); [|apply adds_log]. destruct b; [apply adds_ret|apply adds_show]. Qed.
Lemma adds_error m b : adds (echo_error m (Some lf) b) (Ok tt) [m].
Proof. apply (adds_bind _ _ tt _ [] [m]); [apply adds_show|apply adds_log]. Qed.
Lemma adds_error_screen m b : adds (echo_error m None b) (Ok tt) [].
Proof. apply (adds_bind _ _ tt _ [] []); [apply adds_show|apply adds_ret]. Qed.
Lemma adds_performs silent d l : adds (performs lf silent d l) (Ok tt) (voices d l).
Proof.
  induction l as [|e l IH]; cbn [performs]; [apply adds_ret|].
  change (voices d (e :: l)) with (voice d e ++ voices d l). apply (adds_bind _ _ tt); [|exact IH].
  destruct e; cbn [perform voice]; [apply adds_echo|apply adds_echo| |destruct d; [apply adds_echo|apply adds_ret]].
  apply (adds_bind _ _ tt _ [] [msg]); [apply adds_show|apply adds_log].
Qed.
Lemma adds_call {A} silent d (m : method A) : adds (call lf silent d m) (snd m) (voices d (fst m)).
Proof.
  rewrite <- (app_nil_r (voices d (fst m))). unfold call. apply (adds_bind _ _ tt); [apply adds_performs|].
  destruct (snd m); [apply adds_ret|apply adds_raise].
Qed.
Lemma adds_closing t silent : adds (closing t lf silent) (Ok tt) (references t).
Proof.
  unfold closing, references.
  apply (adds_bind _ _ tt _ [_] [_; _; _; _]); [apply adds_highlight|].
  apply (adds_bind _ _ tt _ [_] [_; _; _]); [apply adds_highlight|].
  apply (adds_bind _ _ tt _ [_] [_; _]); [apply adds_highlight|].
  apply (adds_bind _ _ tt _ [_] [_]); [apply adds_highlight|apply adds_highlight].
Qed.
Lemma adds_look p n : p <> lf -> g p = n -> adds (look p) (Ok n) [].
Proof.
  intros N G l v H. exists v. rewrite app_nil_r. split; [|exact H]. unfold look. unfold written in H. rewrite H, update_other by exact N. now rewrite G.
Qed.
End Log.

(** Writing the result changes the rest of the disk. *)
Lemma written_save lf g ms out s v : lf <> out -> g out <> Dir -> written lf g ms v ->
  exists v', write out s v = (Ok tt, v') /\ written lf (update g out (File s)) ms v'.
Proof.
  intros N D W. unfold written in *. unfold write. assert (E : fs v out = g out) by (rewrite W; apply update_other; auto).
  rewrite E. destruct (g out); [| |contradiction]; (eexists; split; [reflexivity|]); cbn [fs]; rewrite W;
  apply FunctionalExtensionality.functional_extensionality; intros q; unfold update; destruct (String.eqb_spec q out), (String.eqb_spec q lf); congruence.
Qed.

Section Main.
Variables (t : texts) (c : command) (f : string) (o : option string) (silent d : bool) (k : calculator) (a : result bool) (w : world) (s : string).
Let out := outpath c f o.
Let lf := logpath out.
Variable input : fs w f = File s.
Variable log_free : fs w lf <> Dir.
Variable not_input : lf <> f.
Lemma main_starts : exists u, main t c f o silent d k a w = body t c f lf out silent d k a u /\ written lf (fs w) [""; title t] u.
Proof.
  exists (begun t silent lf w). split.
  - apply main_begun; [congruence|exact log_free].
  - unfold written, begun. cbn [fs page]. unfold line. now rewrite append_assoc, ?append_nil.
Qed.
(** Up to the reading of the file. *)
Definition opening : list string := [""; title t; settings c].
Definition reading : list string := opening ++ voices d (fst (new k)) ++ voices d (fst (read_input k s)).
Lemma body_reads u : written lf (fs w) [""; title t] u -> snd (new k) = Ok tt ->
  forall r l, adds lf (fs w) (match snd (read_input k s) with
      | Raises e => raise e
      | Ok (inl err) => echo_error (error_banner t) None false ;; echo_error err (Some lf) false
      | Ok (inr j) => conclude t c lf out silent d j a end) r l ->
  exists v, body t c f lf out silent d k a u = (r, v) /\ written lf (fs w) (reading ++ l) v.
Proof.
  intros U N r l H.
  assert (X : adds lf (fs w) (body t c f lf out silent d k a) r ([settings c] ++ voices d (fst (new k)) ++ voices d (fst (read_input k s)) ++ l)).
  { unfold body. apply (adds_bind _ _ _ _ (File s) _ []); [apply adds_look; auto|]. cbv iota.
    apply (adds_bind _ _ _ _ tt _ [settings c]); [apply adds_echo|].
    apply (adds_bind _ _ _ _ tt); [rewrite <- N; apply adds_call|].
    apply (adds_bind _ _ _ _ (File s) _ []); [apply adds_look; auto|]. cbv iota.
    pose proof (adds_call lf (fs w) silent d (read_input k s)) as C. destruct (snd (read_input k s)) as [z|e].
    - apply (adds_bind _ _ _ _ z); [exact C|exact H].
    - assert (R : r = Raises e /\ forall l0 v0, written lf (fs w) l0 v0 -> written lf (fs w) (l0 ++ l) v0).
      { split.
        - destruct (H _ _ U) as (v' & E & _). unfold raise in E. now injection E as <- _.
        - intros l0 v0 W0. destruct (H _ _ W0) as (v' & E & W'). unfold raise in E. injection E as _ ->. exact W'. }
      destruct R as (-> & R). intros l0 v0 W0. destruct (adds_fail lf (fs w) _ (fun r => match r with
        | inl err => echo_error (error_banner t) None false ;; echo_error err (Some lf) false
        | inr j => conclude t c lf out silent d j a end) _ _ C l0 v0 W0) as (v' & E & W').
      exists v'. split; [exact E|]. rewrite app_assoc. apply R. exact W'. }
  destruct (X _ _ U) as (v & E & W). exists v. split; [exact E|]. unfold reading, opening.
  rewrite <- !app_assoc. exact W.
Qed.
End Main.

(** ** C93 *)
(** A file which is refused: the log ends with the reason, and nothing else is written. *)
Theorem C93_refused t c f o silent d k a w s err : let lf := logpath (outpath c f o) in
  fs w f = File s -> fs w lf <> Dir -> lf <> f -> snd (new k) = Ok tt -> snd (read_input k s) = Ok (inl err) ->
  exists v, main t c f o silent d k a w = (Ok tt, v) /\
  fs v lf = File (page (["" ; title t; settings c] ++ voices d (fst (new k)) ++ voices d (fst (read_input k s)) ++ [err])) /\
  forall q, q <> lf -> fs v q = fs w q.
Proof.
  intros lf F D N K R. destruct (main_starts t c f o silent d k a w s F D) as (u & E & U). fold lf in E, U.
  destruct (body_reads t c f o silent d k a w s F N u U K (Ok tt) [err]) as (v & B & W).
  { rewrite R. apply (adds_bind _ _ _ _ tt _ [] [err]); [apply adds_error_screen|apply adds_error]. }
  exists v. split; [now rewrite E|]. unfold written in W. rewrite W. split.
  - fold lf. rewrite update_same. unfold reading, opening. now rewrite <- !app_assoc.
  - intros q Q. now apply update_other.
Qed.
(** An exception during the reading leaves the command; the log stops before it. *)
Theorem C93_broken t c f o silent d k a w s e : let lf := logpath (outpath c f o) in
  fs w f = File s -> fs w lf <> Dir -> lf <> f -> snd (new k) = Ok tt -> snd (read_input k s) = Raises e ->
  exists v, main t c f o silent d k a w = (Raises e, v) /\
  fs v lf = File (page (["" ; title t; settings c] ++ voices d (fst (new k)) ++ voices d (fst (read_input k s)))) /\
  forall q, q <> lf -> fs v q = fs w q.
Proof.
  intros lf F D N K R. destruct (main_starts t c f o silent d k a w s F D) as (u & E & U). fold lf in E, U.
  destruct (body_reads t c f o silent d k a w s F N u U K (Raises e) []) as (v & B & W).
  { rewrite R. apply adds_raise. }
  exists v. split; [now rewrite E|]. unfold written in W. rewrite W. split.
  - fold lf. rewrite update_same. unfold reading, opening. now rewrite app_nil_r.
  - intros q Q. now apply update_other.
Qed.
(** A job which does not complete: the banner and the reason end the log. *)
Theorem C93_failed t c f o silent d k a w s j err : let lf := logpath (outpath c f o) in
  fs w f = File s -> fs w lf <> Dir -> lf <> f -> snd (new k) = Ok tt -> snd (read_input k s) = Ok (inr j) ->
  snd (report_input_data j) = Ok tt -> snd (run j) = Ok (Some err) ->
  exists v, main t c f o silent d k a w = (Ok tt, v) /\
  fs v lf = File (page (["" ; title t; settings c] ++ voices d (fst (new k)) ++ voices d (fst (read_input k s)) ++
    voices d (fst (report_input_data j)) ++ voices d (fst (run j)) ++ [error_banner t; err])) /\
  forall q, q <> lf -> fs v q = fs w q.
Proof.
  intros lf F D N K R I1 I2. destruct (main_starts t c f o silent d k a w s F D) as (u & E & U). fold lf in E, U.
  destruct (body_reads t c f o silent d k a w s F N u U K (Ok tt) (voices d (fst (report_input_data j)) ++ voices d (fst (run j)) ++ [error_banner t; err])) as (v & B & W).
  { rewrite R. unfold conclude. apply (adds_bind _ _ _ _ tt); [rewrite <- I1; apply adds_call|].
    apply (adds_bind _ _ _ _ (Some err)); [rewrite <- I2; apply adds_call|].
    apply (adds_bind _ _ _ _ tt _ [_] [_]); apply adds_error. }
  exists v. split; [now rewrite E|]. unfold written in W. rewrite W. split.
  - fold lf. rewrite update_same. unfold reading, opening. now rewrite <- !app_assoc.
  - intros q Q. now apply update_other.
Qed.

(** An exception of the constructor: the log stops after the settings. *)
Theorem C93_not_started t c f o silent d k a w s e : let lf := logpath (outpath c f o) in
  fs w f = File s -> fs w lf <> Dir -> lf <> f -> snd (new k) = Raises e ->
  exists v, main t c f o silent d k a w = (Raises e, v) /\
  fs v lf = File (page (["" ; title t; settings c] ++ voices d (fst (new k)))) /\
  forall q, q <> lf -> fs v q = fs w q.
Proof.
  intros lf F D N K. destruct (main_starts t c f o silent d k a w s F D) as (u & E & U). fold lf in E, U.
  assert (X : adds lf (fs w) (body t c f lf (outpath c f o) silent d k a) (Raises e) ([settings c] ++ voices d (fst (new k)))).
  { unfold body. apply (adds_bind _ _ _ _ (File s) _ []); [apply adds_look; auto|]. cbv iota.
    apply (adds_bind _ _ _ _ tt _ [settings c]); [apply adds_echo|]. apply adds_fail. rewrite <- K. apply adds_call. }
  destruct (X _ _ U) as (v & B & W). exists v. split; [now rewrite E|]. unfold written in W. rewrite W. split.
  - rewrite update_same. reflexivity.
  - intros q Q. now apply update_other.
Qed.
(** An exception while the input is reported, or during the run: the log stops
    there and no result is written. *)
Theorem C93_report_raises t c f o silent d k a w s j e : let lf := logpath (outpath c f o) in
  fs w f = File s -> fs w lf <> Dir -> lf <> f -> snd (new k) = Ok tt -> snd (read_input k s) = Ok (inr j) ->
  snd (report_input_data j) = Raises e ->
  exists v, main t c f o silent d k a w = (Raises e, v) /\
  fs v lf = File (page (["" ; title t; settings c] ++ voices d (fst (new k)) ++ voices d (fst (read_input k s)) ++ voices d (fst (report_input_data j)))) /\
  forall q, q <> lf -> fs v q = fs w q.
Proof.
  intros lf F D N K R I1. destruct (main_starts t c f o silent d k a w s F D) as (u & E & U). fold lf in E, U.
  destruct (body_reads t c f o silent d k a w s F N u U K (Raises e) (voices d (fst (report_input_data j)))) as (v & B & W).
  { rewrite R. unfold conclude. apply adds_fail. rewrite <- I1. apply adds_call. }
  exists v. split; [now rewrite E|]. unfold written in W. rewrite W. split.
  - fold lf. rewrite update_same. unfold reading, opening. now rewrite <- !app_assoc.
  - intros q Q. now apply update_other.
Qed.
Theorem C93_run_raises t c f o silent d k a w s j e : let lf := logpath (outpath c f o) in
  fs w f = File s -> fs w lf <> Dir -> lf <> f -> snd (new k) = Ok tt -> snd (read_input k s) = Ok (inr j) ->
  snd (report_input_data j) = Ok tt -> snd (run j) = Raises e ->
  exists v, main t c f o silent d k a w = (Raises e, v) /\
  fs v lf = File (page (["" ; title t; settings c] ++ voices d (fst (new k)) ++ voices d (fst (read_input k s)) ++
    voices d (fst (report_input_data j)) ++ voices d (fst (run j)))) /\
  forall q, q <> lf -> fs v q = fs w q.
Proof.
  intros lf F D N K R I1 I2. destruct (main_starts t c f o silent d k a w s F D) as (u & E & U). fold lf in E, U.
  destruct (body_reads t c f o silent d k a w s F N u U K (Raises e) (voices d (fst (report_input_data j)) ++ voices d (fst (run j)))) as (v & B & W).
  { rewrite R. unfold conclude. apply (adds_bind _ _ _ _ tt); [rewrite <- I1; apply adds_call|].
    apply adds_fail. rewrite <- I2. apply adds_call. }
  exists v. split; [now rewrite E|]. unfold written in W. rewrite W. split.
  - fold lf. rewrite update_same. unfold reading, opening. now rewrite <- !app_assoc.
  - intros q Q. now apply update_other.
Qed.

Definition told_by (c : command) (d : bool) (k : calculator) (s : string) (j : job) : list string :=
  voices d (fst (new k)) ++ voices d (fst (read_input k s)) ++ voices d (fst (report_input_data j)) ++ voices d (fst (run j)) ++
  (if reports c then voices d (fst (report_results j)) else []).
(** The whole log of a run which completes and is saved. *)
Theorem C93_completed t c f o silent d k a w s j : let out := outpath c f o in let lf := logpath out in
  proper c -> fs w f = File s -> fs w lf <> Dir -> lf <> f ->
  snd (new k) = Ok tt -> snd (read_input k s) = Ok (inr j) -> snd (report_input_data j) = Ok tt -> snd (run j) = Ok None ->
  (reports c = true -> snd (report_results j) = Ok tt) ->
  (fs w out = Absent \/ fs w out <> Dir /\ a = Ok true) ->
  exists v, main t c f o silent d k a w = (Ok tt, v) /\ fs v out = File (saved j) /\
  fs v lf = File (page (["" ; title t; settings c] ++ told_by c d k s j ++ voices d (exported j) ++ references t)) /\
  forall q, q <> lf -> q <> out -> fs v q = fs w q.
Proof.
  intros out lf P F D N K R I1 I2 I3 O.
  assert (LO : lf <> out) by (apply C62_log_not_result; exact P).
  destruct (main_starts t c f o silent d k a w s F D) as (u & E & U). fold out in E, U. fold lf in E, U.
  set (before := voices d (fst (report_input_data j)) ++ voices d (fst (run j)) ++ (if reports c then voices d (fst (report_results j)) else [])).
  (* the program up to the saving *)
  assert (X : forall l v, written lf (fs w) l v -> exists v', conclude t c lf out silent d j a v = (Ok tt, v') /\
            written lf (update (fs w) out (File (saved j))) (l ++ before ++ voices d (exported j) ++ references t) v').
  { intros l v W.
    pose proof (adds_call lf (fs w) silent d (report_input_data j) l v W) as (v1 & E1 & W1). rewrite I1 in E1.
    pose proof (adds_call lf (fs w) silent d (run j) _ v1 W1) as (v2 & E2 & W2). rewrite I2 in E2.
    assert (Y : exists v3, (if reports c then call lf silent d (report_results j) else ret tt) v2 = (Ok tt, v3) /\ written lf (fs w) (l ++ before) v3).
    { unfold before. destruct (reports c).
      - destruct (adds_call lf (fs w) silent d (report_results j) _ v2 W2) as (v3 & E3 & W3). rewrite (I3 eq_refl) in E3.
        exists v3. split; [exact E3|]. rewrite !app_assoc. exact W3.
      - exists v2. split; [reflexivity|]. rewrite app_nil_r, !app_assoc. exact W2. }
    destruct Y as (v3 & E3 & W3).
    assert (Z : exists v4, save lf out silent d j a v3 = (Ok tt, v4) /\ written lf (update (fs w) out (File (saved j))) ((l ++ before) ++ voices d (exported j)) v4).
    { assert (S1 : forall u0, written lf (fs w) (l ++ before) u0 -> exists v4, export_hdf5 lf silent d j out u0 = (Ok tt, v4) /\
                     written lf (update (fs w) out (File (saved j))) ((l ++ before) ++ voices d (exported j)) v4).
      { intros u0 W0. destruct (written_save lf (fs w) (l ++ before) out (saved j) u0 LO) as (u1 & G1 & W4); [destruct O as [->|(O & _)]; [discriminate|exact O]|exact W0|].
        destruct (adds_performs lf _ silent d (exported j) _ u1 W4) as (u2 & G2 & W5). exists u2. split; [|exact W5].
        unfold export_hdf5, bind. now rewrite G1. }
      assert (EO : fs v3 out = fs w out) by (rewrite W3; apply update_other; auto).
      unfold save, bind at 1, look. rewrite EO. destruct O as [O|(O & ->)].
      - rewrite O. apply S1. exact W3.
      - destruct (fs w out) eqn:EW; [now apply S1| |contradiction].
        unfold confirm, bind, show, ret. apply S1. exact W3. }
    destruct Z as (v4 & E4 & W4). destruct (adds_closing lf _ t silent _ v4 W4) as (v5 & E5 & W5).
    exists v5. split.
    - unfold conclude, bind. rewrite E1, E2, E3, E4. exact E5.
    - rewrite <- !app_assoc in W5. rewrite <- ?app_assoc. exact W5. }
  assert (Y : exists v0, body t c f lf out silent d k a u = conclude t c lf out silent d j a v0 /\ written lf (fs w) (reading t c d k s) v0).
  { unfold body. destruct (adds_echo lf (fs w) (settings c) silent _ u U) as (u1 & E1 & W1).
    destruct (adds_call lf (fs w) silent d (new k) _ u1 W1) as (u2 & E2 & W2). rewrite K in E2.
    destruct (adds_call lf (fs w) silent d (read_input k s) _ u2 W2) as (u3 & E3 & W3). rewrite R in E3.
    exists u3. split.
    - unfold bind at 1, look at 1. assert (EF : fs u f = File s) by (rewrite U, update_other by auto; exact F). rewrite EF.
      unfold bind at 1. rewrite E1. unfold bind at 1. rewrite E2. unfold bind at 1, look at 1.
      assert (EF2 : fs u2 f = File s) by (rewrite W2, update_other by auto; exact F). rewrite EF2. unfold bind at 1. rewrite E3. reflexivity.
    - unfold reading, opening. rewrite <- !app_assoc in W3. exact W3. }
  destruct Y as (v0 & Y & W0). destruct (X _ _ W0) as (v & B & W). exists v. split; [now rewrite E, Y|].
  unfold written in W. rewrite W. split; [|split].
  - rewrite update_other by auto. apply update_same.
  - rewrite update_same. unfold reading, opening, told_by, before. rewrite <- !app_assoc. reflexivity.
  - intros q Q1 Q2. rewrite update_other by exact Q1. now apply update_other.
Qed.
(** The same when the user keeps the old result: only the log is written. *)
Theorem C93_kept t c f o silent d k w s j : let out := outpath c f o in let lf := logpath out in
  proper c -> fs w f = File s -> fs w lf <> Dir -> lf <> f ->
  snd (new k) = Ok tt -> snd (read_input k s) = Ok (inr j) -> snd (report_input_data j) = Ok tt -> snd (run j) = Ok None ->
  (reports c = true -> snd (report_results j) = Ok tt) -> fs w out <> Absent ->
  exists v, main t c f o silent d k (Ok false) w = (Ok tt, v) /\
  fs v lf = File (page (["" ; title t; settings c] ++ told_by c d k s j ++ ["Results not saved"] ++ references t)) /\
  forall q, q <> lf -> fs v q = fs w q.
Proof.
  intros out lf P F D N K R I1 I2 I3 O.
  assert (LO : lf <> out) by (apply C62_log_not_result; exact P).
  destruct (main_starts t c f o silent d k (Ok false) w s F D) as (u & E & U). fold out in E, U. fold lf in E, U.
  destruct (body_reads t c f o silent d k (Ok false) w s F N u U K (Ok tt)
    (voices d (fst (report_input_data j)) ++ voices d (fst (run j)) ++ (if reports c then voices d (fst (report_results j)) else []) ++ ["Results not saved"] ++ references t)) as (v & B & W).
  { rewrite R. unfold conclude. apply (adds_bind _ _ _ _ tt); [rewrite <- I1; apply adds_call|].
    apply (adds_bind _ _ _ _ None); [rewrite <- I2; apply adds_call|].
    apply (adds_bind _ _ _ _ tt).
    { destruct (reports c); [rewrite <- (I3 eq_refl); apply adds_call|apply adds_ret]. }
    apply (adds_bind _ _ _ _ tt); [|apply adds_closing]. unfold save. fold out. fold lf.
    apply (adds_bind _ _ _ _ (fs w out) _ [] ["Results not saved"]); [apply adds_look; auto|].
    assert (C : adds lf (fs w) (do ans <- confirm (question out) (Ok false); if (ans : bool) then export_hdf5 lf silent d j out else echo "Results not saved" (Some lf) false) (Ok tt) ["Results not saved"]).
    { apply (adds_bind _ _ _ _ false _ [] ["Results not saved"]); [|apply adds_echo]. unfold confirm. apply (adds_bind _ _ _ _ tt _ [] []); [apply adds_show|apply adds_ret]. }
    destruct (fs w out); [contradiction|exact C|exact C]. }
  exists v. split; [now rewrite E|]. unfold written in W. rewrite W. split.
  - fold out. fold lf. rewrite update_same. unfold reading, opening, told_by. rewrite <- !app_assoc. reflexivity.
  - intros q Q. now apply update_other.
Qed.
(** With -d only lines which begin with 'Debug: ' are added. *)
Lemma with_others_app P a b a' b' : with_others P a b -> with_others P a' b' -> with_others P (a ++ a') (b ++ b').
Proof. induction 1; intros H'; cbn [app]; [exact H'|constructor; auto|constructor; auto]. Qed.
Lemma with_others_refl P a : with_others P a a.
Proof. induction a; constructor; auto. Qed.
Lemma voices_debug l : with_others debug_line (voices false l) (voices true l).
Proof.
  induction l as [|e l IH]; [constructor|]. change (voices false (e :: l)) with (voice false e ++ voices false l).
  change (voices true (e :: l)) with (voice true e ++ voices true l). apply with_others_app; [|exact IH].
  destruct e; cbn [voice]; try apply with_others_refl. apply wo_other; [now exists msg|constructor].
Qed.
Theorem C93_debug t c f o silent silent' k a w s j : let out := outpath c f o in let lf := logpath out in
  proper c -> fs w f = File s -> fs w lf <> Dir -> lf <> f ->
  snd (new k) = Ok tt -> snd (read_input k s) = Ok (inr j) -> snd (report_input_data j) = Ok tt -> snd (run j) = Ok None ->
  (reports c = true -> snd (report_results j) = Ok tt) ->
  (fs w out = Absent \/ fs w out <> Dir /\ a = Ok true) ->
  let v := snd (main t c f o silent false k a w) in let v' := snd (main t c f o silent' true k a w) in
  fs v out = fs v' out /\ exists l l', fs v lf = File (page l) /\ fs v' lf = File (page l') /\ with_others debug_line l l'.
Proof.
  intros out lf P F D N K R I1 I2 I3 O v v'.
  destruct (C93_completed t c f o silent false k a w s j P F D N K R I1 I2 I3 O) as (x & E & S1 & L1 & _).
  destruct (C93_completed t c f o silent' true k a w s j P F D N K R I1 I2 I3 O) as (x' & E' & S2 & L2 & _).
  unfold v, v'. rewrite E, E'. cbn [snd]. split; [fold out in S1, S2; congruence|]. do 2 eexists. split; [exact L1|]. split; [exact L2|].
  apply with_others_app; [apply with_others_refl|]. apply with_others_app; [|apply with_others_app; [apply voices_debug|apply with_others_refl]].
  unfold told_by. do 4 (apply with_others_app; [apply voices_debug|]). destruct (reports c); [apply voices_debug|constructor].
Qed.

(** The references of each command. *)
Definition quantas_doi := "10.1107/S1600576722000085".
Definition apatite_doi := "10.1002/qua.25553".
Definition talc_doi := "10.1007/s00269-014-0677-x".
Definition clinochlore_doi := "10.1016/j.compstruct.2018.02.089".
Definition elate_doi := "10.1088/0953-8984/28/27/275201".
Definition christoffel_doi := "10.1016/j.cpc.2016.06.014".
Definition all_dois : list string := [quantas_doi; apatite_doi; talc_doi; clinochlore_doi; elate_doi; christoffel_doi].
Definition credits : list (texts * list string) :=
  [(ha_texts, [quantas_doi; apatite_doi]); (qha_texts, [quantas_doi; apatite_doi]);
   (eosfit_texts, [quantas_doi; talc_doi]); (soec_texts, [quantas_doi; clinochlore_doi; elate_doi]);
   (seismic_texts, [quantas_doi; clinochlore_doi; elate_doi; christoffel_doi])].
Definition mentions (s d : string) : Prop := exists a b, s = a +++ d +++ b.
Fixpoint occurs (d s : string) : bool :=
  if String.prefix d s then true else match s with EmptyString => false | String _ s => occurs d s end.
Lemma prefix_true d s : String.prefix d s = true -> exists b, s = d +++ b.
Proof.
  revert s; induction d as [|x d IH]; intros s H; [now exists s|]. destruct s as [|y s]; [discriminate|]. cbn [String.prefix] in H.
  destruct (ascii_dec x y) as [->|]; [|discriminate]. destruct (IH s H) as (b & ->). now exists b.
Qed.
Lemma prefix_refl d b : String.prefix d (d +++ b) = true.
Proof. induction d; cbn [String.append String.prefix]; [now destruct b|]. destruct (ascii_dec a a); [exact IHd|contradiction]. Qed.
Lemma occurs_spec d s : occurs d s = true <-> mentions s d.
Proof.
  split.
  - induction s as [|c s IH]; cbn [occurs]; destruct (String.prefix d _) eqn:E.
    + intros _. destruct (prefix_true _ _ E) as (b & ->). now exists "", b.
    + discriminate.
    + intros _. destruct (prefix_true _ _ E) as (b & ->). now exists "", b.
    + intros H. destruct (IH H) as (a & b & ->). now exists (String c a), b.
  - intros (a & b & ->). induction a as [|c a IH]; cbn [String.append].
    + destruct (d +++ b) as [|x r] eqn:E; cbn [occurs]; rewrite <- E, prefix_refl; reflexivity.
    + cbn [occurs]. rewrite IH. now destruct (String.prefix d _).
Qed.
Lemma credits_checked : forallb (fun td => forallb (fun doi => Bool.eqb (occurs doi (page (references (fst td)))) (existsb (String.eqb doi) (snd td))) all_dois) credits = true.
Proof. vm_compute. reflexivity. Qed.
Theorem C93_references t ds doi : In (t, ds) credits -> In doi all_dois ->
  (mentions (page (references t)) doi <-> In doi ds).
Proof.
  intros H D. rewrite <- occurs_spec. pose proof credits_checked as C. rewrite forallb_forall in C. specialize (C _ H). cbn [fst snd] in C.
  rewrite forallb_forall in C. specialize (C _ D). apply Bool.eqb_prop in C. rewrite C. rewrite existsb_exists. split.
  - intros (x & I & E). apply String.eqb_eq in E. now subst.
  - intros I. exists doi. split; [exact I|apply String.eqb_refl].
Qed.
(** The log of every completed run of the four commands ends with them. *)
Theorem C93_credits t ds c f o silent d k a w s j doi : let out := outpath c f o in let lf := logpath out in
  proper c -> fs w f = File s -> fs w lf <> Dir -> lf <> f ->
  snd (new k) = Ok tt -> snd (read_input k s) = Ok (inr j) -> snd (report_input_data j) = Ok tt -> snd (run j) = Ok None ->
  (reports c = true -> snd (report_results j) = Ok tt) ->
  (fs w out = Absent \/ fs w out <> Dir /\ a = Ok true) ->
  In (t, ds) credits -> In doi ds ->
  exists text, fs (snd (main t c f o silent d k a w)) lf = File text /\ mentions text doi.
Proof.
  intros out lf P F D N K R I1 I2 I3 O H X.
  destruct (C93_completed t c f o silent d k a w s j P F D N K R I1 I2 I3 O) as (v & E & _ & L & _).
  rewrite E. cbn [snd]. eexists. split; [exact L|].
  assert (A : In doi all_dois).
  { unfold credits in H. cbn [In] in H. unfold all_dois. repeat (destruct H as [H|H]; [injection H as <- <-; cbn [In] in *; tauto|]). contradiction. }
  apply (C93_references t ds doi H A) in X as (x & y & X). rewrite !app_assoc, page_app, X.
  set (z := page _). exists (z +++ x), y. now rewrite append_assoc.
Qed.

(** A quasi-harmonic run over an old result, with debug lines. *)
Example C93_instance : proper (qha_command "settings") /\
  fs (snd (main qha_texts (qha_command "settings") "run/mgo.yaml" None true true sample_calculator (Ok true) sample_world)) "run/mgo_QHA.txt" =
    File (page ([""; quantas_title; "settings"; "volumes"; "minimising"; "negative frequency"; "Debug: details"; "table"; "exported"] ++
                [biblio_header; quantas_citation; qha_citation; biblio_footer; quantas_finish])) /\
  fs (snd (main qha_texts (qha_command "settings") "run/mgo.yaml" None true true sample_calculator (Ok true) sample_world)) "run/mgo_QHA.hdf5" = File "binary" /\
  mentions (page (references qha_texts)) "10.1002/qua.25553" /\ ~ mentions (page (references qha_texts)) "10.1007/s00269-014-0677-x".
Proof.
  split; [unfold proper; cbn; tauto|].
  destruct (C93_completed qha_texts (qha_command "settings") "run/mgo.yaml" None true true sample_calculator (Ok true) sample_world "good" sample_job) as (v & E & S1 & L & _);
    try reflexivity; try (vm_compute; discriminate); [unfold proper; cbn; tauto|right; split; [vm_compute; discriminate|reflexivity]|].
  rewrite E. cbn [snd]. split; [exact L|]. split; [exact S1|].
  split; [apply (C93_references qha_texts [quantas_doi; apatite_doi]); unfold credits, all_dois; cbn; tauto|].
  rewrite (C93_references qha_texts [quantas_doi; apatite_doi]); [|unfold credits; cbn; tauto|unfold all_dois; cbn; tauto].
  intros [X|[X|[]]]; discriminate X.
Qed.

Print Assumptions C93_refused.
Print Assumptions C93_broken.
Print Assumptions C93_failed.
Print Assumptions C93_not_started.
Print Assumptions C93_report_raises.
Print Assumptions C93_run_raises.
Print Assumptions C93_completed.
Print Assumptions C93_kept.
Print Assumptions C93_debug.
Print Assumptions C93_references.
Print Assumptions C93_credits.
