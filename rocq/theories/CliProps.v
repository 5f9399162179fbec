(** C61 (messages and log), C62 (result, log and input files of a command). *)
From Coq Require Import String Ascii List Bool Arith Lia FunctionalExtensionality.
From Verif Require Import DecimalModel DecimalProofs CliModel CliProofs.
Import ListNotations.
Open Scope string_scope.
Open Scope list_scope.
Open Scope nat_scope.

(** The default result names end in .hdf5, after a letter. *)
Definition proper (c : command) : Prop := In (default_suffix c) ["_HA.hdf5"; "_QHA.hdf5"; "_SOEC.hdf5"; "_SEISMIC.hdf5"].
Lemma proper_suffix c : proper c -> exists s, default_suffix c = s +++ ".hdf5".
Proof. intros [<-|[<-|[<-|[<-|[]]]]]; [exists "_HA"|exists "_QHA"|exists "_SOEC"|exists "_SEISMIC"]; reflexivity. Qed.

(** * C61 *)
(** Quiet or not, a run leaves the same files (log included), ends the same
    way, and shows the same errors, warnings and questions. *)
Theorem C61_quiet_same_files t c f o d k a w :
  fst (main t c f o true d k a w) = fst (main t c f o false d k a w) /\
  fs (snd (main t c f o true d k a w)) = fs (snd (main t c f o false d k a w)) /\
  loud (screen (snd (main t c f o true d k a w))) = loud (screen (snd (main t c f o false d k a w))).
Proof. apply alike_main; reflexivity. Qed.

(** The log of a run is a newline followed by everything the run says when it
    is not quiet, one line each, except: questions are not in the log, and the
    banner of a failed reading is on the terminal only. *)
Theorem C61_log_complete t c f o d k a w : proper c -> screen w = [] -> fs w f <> Absent ->
  let lf := logpath (outpath c f o) in
  let v := snd (main t c f o false d k a w) in
  fs w lf <> Dir ->
  logs lf v \/
  exists before err, screen v = before ++ [(Error, error_banner t); (Error, err)] /\
    fs v lf = File (line "" +++ text (spoken before) +++ line err).
Proof.
  intros Hc Hw Hf lf v Hl. unfold v. rewrite main_begun by assumption. fold lf.
  set (out := outpath c f o) in *.
  assert (D : out <> lf). { intros E. symmetry in E. revert E. apply log_not_out. apply out_last, proper_suffix, Hc. }
  assert (B := begun_logs t lf w Hw). set (u := begun t false lf w) in *. clearbody u.
  pose proof (logs_both lf) as K. assert (O : false = true -> forall msg, keeps (logs lf) (log (Some lf) msg)) by discriminate.
  set (good := fun v : world => logs lf v \/ exists before err, screen v = before ++ [(Error, error_banner t); (Error, err)] /\
    fs v lf = File (line "" +++ text (spoken before) +++ line err)).
  change (good (snd (body t c f lf out false d k a u))). assert (G : forall v, logs lf v -> good v) by (intros x Hx; now left).
  unfold body. rewrite (bind_ok (look f) _ u (fs u f) u) by reflexivity.
  assert (E : forall m, good (snd ((echo_error (error_banner t) (Some lf) false ;; echo_error m (Some lf) false) u))).
  { intros m. apply G, (keeps_bind (logs lf)); [apply keeps_error; assumption|intros _; apply keeps_error; assumption|exact B]. }
  destruct (fs u f); [apply E| |apply E]. clear E.
  unfold bind at 1. pose proof (keeps_echo (logs lf) lf false K O (settings c) u B) as B1.
  destruct (echo (settings c) (Some lf) false u) as ([?|?], u1); cbn [snd] in B1; [|apply G; exact B1].
  unfold bind at 1. pose proof (keeps_call (logs lf) lf false K O d (new k) u1 B1) as B2.
  destruct (call lf false d (new k) u1) as ([?|?], u2); cbn [snd] in B2; [|apply G; exact B2].
  rewrite (bind_ok (look f) _ u2 (fs u2 f) u2) by reflexivity.
  unfold bind at 1. set (r := read_input k _). pose proof (keeps_call (logs lf) lf false K O d r u2 B2) as B3.
  destruct (call lf false d r u2) as ([[err|j]|?], u3); cbn [snd] in B3; [| |apply G; exact B3].
  - right. exists (screen u3), err. unfold echo_error, log, bind, show, ret, append. cbn [fs screen]. unfold logs in B3. rewrite B3. cbn [snd fs screen].
    rewrite <- app_assoc. split; [reflexivity|]. rewrite update_same. now rewrite append_assoc.
  - apply G, keeps_conclude; [exact K|exact O|apply logs_write; exact D|apply logs_question|exact B3].
Qed.

(** Quiet runs say only errors, warnings, questions, what the calculator marks
    as always shown -- and that the results were not saved. *)
Definition forced (m : string) (l : list event) : Prop := In (SayAlways m) l.
Definition allowed (k : calculator) (s : kind * string) : Prop :=
  is_loud s = true \/ s = (Plain, "Results not saved") \/
  exists m, s = (Plain, m) /\
    (forced m (fst (new k)) \/ exists txt, forced m (fst (read_input k txt)) \/
     exists j, snd (read_input k txt) = Ok (inr j) /\
       (forced m (fst (report_input_data j)) \/ forced m (fst (run j)) \/ forced m (fst (report_results j)) \/ forced m (exported j))).
Definition says (P : kind * string -> Prop) (w : world) : Prop := Forall P (screen w).
Section Quiet.
Variable P : kind * string -> Prop.
Lemma says_append p s : keeps (says P) (append p s).
Proof. intros w H. unfold says, append in *. destruct (fs w p); exact H. Qed.
Lemma says_write p s : keeps (says P) (write p s).
Proof. intros w H. unfold says, write in *. destruct (fs w p); exact H. Qed.
Lemma says_log o s : keeps (says P) (log o s). Proof. destruct o; [apply says_append|apply keeps_ret]. Qed.
Lemma says_show k m : P (k, m) -> keeps (says P) (show k m).
Proof. intros H w Hw. unfold says, show in *. cbn [snd screen]. apply Forall_app. split; [exact Hw|now constructor]. Qed.
Lemma says_both k m o : P (k, m) -> keeps (says P) (show k m ;; log o m).
Proof. intros H. apply keeps_bind; [now apply says_show|intros _; apply says_log]. Qed.
Lemma says_echo m o : keeps (says P) (echo m o true).
Proof. apply keeps_bind; [apply keeps_ret|intros _; apply says_log]. Qed.
Lemma says_highlight m o : keeps (says P) (echo_highlight m o true).
Proof. apply keeps_bind; [apply keeps_ret|intros _; apply says_log]. Qed.
Lemma says_performs lf d l : (forall s, is_loud s = true -> P s) -> (forall m, forced m l -> P (Plain, m)) -> keeps (says P) (performs lf true d l).
Proof.
  intros L F. induction l as [|e l IH]; cbn [performs]; [apply keeps_ret|]. apply keeps_bind.
  - destruct e; cbn [perform].
    + apply says_echo.
    + apply says_both. apply F. now left.
    + apply says_both. now apply L.
    + destruct d; [apply says_echo|apply keeps_ret].
  - intros _. apply IH. intros m H. apply F. now right.
Qed.
Lemma says_call {A} lf d (m : method A) : (forall s, is_loud s = true -> P s) -> (forall x, forced x (fst m) -> P (Plain, x)) -> keeps (says P) (call lf true d m).
Proof. intros L F. apply keeps_bind; [now apply says_performs|]. intros _. destruct (snd m); [apply keeps_ret|apply keeps_raise]. Qed.
End Quiet.

Lemma call_value {A} lf s d (m : method A) w a v : call lf s d m w = (Ok a, v) -> snd m = Ok a.
Proof.
  unfold call, bind. destruct (performs lf s d (fst m) w) as ([?|?], u); [|discriminate]. destruct (snd m); [|discriminate].
  unfold ret. intros E. now injection E as ->.
Qed.

Theorem C61_quiet_screen t c f o d k a w : screen w = [] ->
  Forall (allowed k) (screen (snd (main t c f o true d k a w))).
Proof.
  intros Hw. assert (L : forall s, is_loud s = true -> allowed k s) by (intros s H; now left).
  assert (I0 : says (allowed k) w). { unfold says. rewrite Hw. constructor. }
  destruct (fs w f) eqn:Hf; [rewrite main_absent by exact Hf; exact I0| |];
  (destruct (fs w (logpath (outpath c f o))) eqn:Hl;
   [| |rewrite main_no_log by (congruence || exact Hl); exact I0]);
  rewrite main_begun by congruence;
  (set (out := outpath c f o) in *; set (lf := logpath out) in *; set (u := begun t true lf w);
   assert (B : says (allowed k) u) by (unfold says, u, begun; cbn [screen]; now rewrite app_nil_r);
   clearbody u; clear I0; change (says (allowed k) (snd (body t c f lf out true d k a u)));
   unfold body; rewrite (bind_ok (look f) _ u (fs u f) u) by reflexivity).
  all: assert (E : forall o1 o2 m, says (allowed k) (snd ((echo_error (error_banner t) o1 false ;; echo_error m o2 false) u)))
    by (intros o1 o2 m; apply (keeps_bind (says (allowed k))); [apply says_both; now apply L|intros _; apply says_both; now apply L|exact B]).
  all: destruct (fs u f); [apply E| |apply E]; clear E.
  all: unfold bind at 1; pose proof (says_echo (allowed k) (settings c) (Some lf) u B) as B1;
    destruct (echo (settings c) (Some lf) true u) as ([?|?], u1); cbn [snd] in B1; [|exact B1].
  all: unfold bind at 1; assert (B2 : says (allowed k) (snd (call lf true d (new k) u1)))
    by (apply says_call; [exact L| |exact B1]; intros m Hm; right; right; exists m; split; [reflexivity|now left]).
  all: destruct (call lf true d (new k) u1) as ([?|?], u2); cbn [snd] in B2; [|exact B2].
  all: rewrite (bind_ok (look f) _ u2 (fs u2 f) u2) by reflexivity.
  all: unfold bind at 1; set (txt := match fs u2 f with File s => s | _ => "" end).
  all: assert (B3 : says (allowed k) (snd (call lf true d (read_input k txt) u2)))
    by (apply says_call; [exact L| |exact B2]; intros m Hm; right; right; exists m; split; [reflexivity|right; exists txt; now left]).
  all: destruct (call lf true d (read_input k txt) u2) as ([[err|j]|?], u3) eqn:Hr; cbn [snd] in B3; [| |exact B3].
  all: try (apply (keeps_bind (says (allowed k))); [apply says_both; now apply L|intros _; apply says_both; now apply L|exact B3]).
  all: apply call_value in Hr.
  all: assert (J : forall l m, (l = fst (report_input_data j) \/ l = fst (run j) \/ l = fst (report_results j) \/ l = exported j) -> forced m l -> allowed k (Plain, m))
    by (intros l m [->|[->|[->| ->]]] Hm; right; right; exists m; (split; [reflexivity|]); right; exists txt; right; exists j; tauto).
  all: revert u3 B3; change (keeps (says (allowed k)) (conclude t c lf out true d j a)); unfold conclude.
  all: apply keeps_bind; [apply says_call; [exact L|intros m; apply J; tauto]|intros _].
  all: apply keeps_bind; [apply says_call; [exact L|intros m; apply J; tauto]|intros e].
  all: destruct e; [apply keeps_bind; [apply says_both; now apply L|intros _; apply says_both; now apply L]|].
  all: apply keeps_bind; [destruct (reports c); [apply says_call; [exact L|intros m; apply J; tauto]|apply keeps_ret]|intros _].
  all: apply keeps_bind; [|intros _; unfold closing; repeat (apply keeps_bind; [apply says_highlight|intros _]); apply says_highlight].
  all: assert (X : keeps (says (allowed k)) (export_hdf5 lf true d j out))
    by (apply keeps_bind; [apply says_write|intros _; apply says_performs; [exact L|intros m; apply J; tauto]]).
  all: unfold save; apply keeps_bind; [apply keeps_look|intros n].
  all: assert (Y : keeps (says (allowed k)) (do ans <- confirm (question out) a; if (ans : bool) then export_hdf5 lf true d j out else echo "Results not saved" (Some lf) false))
    by (apply keeps_bind; [apply keeps_bind; [apply says_show; now apply L|intros _; destruct a; [apply keeps_ret|apply keeps_raise]]|
        intros b; destruct b; [exact X|apply says_both; right; now left]]).
  all: destruct n; assumption.
Qed.

(** "Results not saved" is said even by a quiet run. *)
Definition sample_texts : texts := {| title := "Quantas"; error_banner := "ERROR"; bib_header := "References"; bib_footer := "---";
  own_citation := "Quantas paper"; citation := "QHA paper"; finish := "Finish" |}.
Definition sample_job : job := {| report_input_data := ([Say "volumes"], Ok tt); run := ([Say "minimising"; Warn "negative frequency"; Debug "details"], Ok None);
  report_results := ([Say "table"], Ok tt); saved := "binary"; exported := [Say "exported"] |}.
Definition sample_calculator : calculator := {| new := ([], Ok tt); read_input := fun s => ([], if String.eqb s "good" then Ok (inr sample_job) else Ok (inl "bad input")) |}.
Definition sample_world : world := {| fs := fun p => if String.eqb p "run/mgo.yaml" then File "good" else if String.eqb p "run/mgo_QHA.hdf5" then File "old" else Absent; screen := [] |}.
Definition sample_run (silent : bool) (a : result bool) : result unit * world :=
  main sample_texts (qha_command "settings") "run/mgo.yaml" None silent false sample_calculator a sample_world.
Theorem C61_not_saved_said_refuted : exists t c f o d k a w,
  screen w = [] /\ In (Plain, "Results not saved") (screen (snd (main t c f o true d k a w))) /\
  (forall txt, fst (read_input k txt) = []).
Proof.
  exists sample_texts, (qha_command "settings"), "run/mgo.yaml", None, false, sample_calculator, (Ok false), sample_world.
  split; [reflexivity|]. split; [|intros txt; reflexivity]. vm_compute. tauto.
Qed.
Example C61_instance :
  screen (snd (sample_run true (Ok false))) = [(Warning, "negative frequency"); (Question, "Output file run/mgo_QHA.hdf5 exists. Would you like to overwrite it?"); (Plain, "Results not saved")] /\
  fs (snd (sample_run true (Ok false))) "run/mgo_QHA.txt" = fs (snd (sample_run false (Ok false))) "run/mgo_QHA.txt" /\
  fs (snd (sample_run false (Ok false))) "run/mgo_QHA.txt" =
    File (text [(Plain, ""); (Plain, "Quantas"); (Plain, "settings"); (Plain, "volumes"); (Plain, "minimising"); (Plain, "negative frequency"); (Plain, "table");
                (Plain, "Results not saved"); (Plain, "References"); (Plain, "Quantas paper"); (Plain, "QHA paper"); (Plain, "---"); (Plain, "Finish")]).
Proof. split; [vm_compute; reflexivity|]. split; vm_compute; reflexivity. Qed.

(** A run starts its log from nothing: what the log file held before does not
    matter (unless the log is the input). *)
Theorem C61_fresh t c f o silent d k a w old1 old2 :
  let lf := logpath (outpath c f o) in
  lf <> f -> fs w f <> Absent -> old1 <> Dir -> old2 <> Dir ->
  main t c f o silent d k a {| fs := update (fs w) lf old1; screen := screen w |} =
  main t c f o silent d k a {| fs := update (fs w) lf old2; screen := screen w |}.
Proof.
  intros lf N Hf H1 H2.
  assert (A : forall old, update (fs w) lf old f <> Absent) by (intros old; rewrite update_other by auto; exact Hf).
  rewrite !main_begun; cbn [fs]; try apply A; fold lf; rewrite ?update_same; try assumption.
  unfold begun. cbn [fs screen]. now rewrite !update_twice.
Qed.

(** eosfit is never quiet; its log is complete in the same sense. *)
Theorem C61_eosfit_log t c f k w : screen w = [] -> fs w f <> Absent -> fs w (eosfit_log f) <> Dir ->
  let v := snd (eosfit t c f None k w) in
  logs (eosfit_log f) v \/
  exists before err, screen v = before ++ [(Error, error_banner t); (Error, err)] /\
    fs v (eosfit_log f) = File (line "" +++ text (spoken before) +++ line err).
Proof.
  intros Hw Hf Hl. cbv zeta. set (lf := eosfit_log f) in *.
  pose proof (logs_both lf) as K. assert (O : false = true -> forall msg, keeps (logs lf) (log (Some lf) msg)) by discriminate.
  set (good := fun v : world => logs lf v \/ exists before err, screen v = before ++ [(Error, error_banner t); (Error, err)] /\
    fs v lf = File (line "" +++ text (spoken before) +++ line err)).
  change (good (snd (eosfit t c f None k w))). assert (G : forall v, logs lf v -> good v) by (intros x Hx; now left).
  unfold eosfit. rewrite (bind_ok (look f) _ w (fs w f) w) by reflexivity.
  fold lf. set (prog := init_logfile (Some lf) ;; _).
  assert (X : good (snd (prog w))); [|destruct (fs w f); [contradiction|exact X|exact X]]. unfold prog. clear prog.
  assert (Y : exists u0, init_logfile (Some lf) w = (Ok tt, u0) /\ logs lf u0).
  { unfold init_logfile, write. destruct (fs w lf) eqn:E; [| |contradiction]; (eexists; split; [reflexivity|]; unfold logs; cbn [fs screen]; rewrite update_same, Hw; reflexivity). }
  destruct Y as (u0 & E0 & B0). rewrite (bind_ok _ _ _ _ _ E0).
  unfold bind at 1. pose proof (keeps_highlight (logs lf) lf false K O (title t) u0 B0) as B.
  destruct (echo_highlight (title t) (Some lf) false u0) as ([?|?], u); cbn [snd] in B; [|apply G; exact B].
  rewrite (bind_ok (look f) _ u (fs u f) u) by reflexivity.
  assert (E : forall m, good (snd ((echo_error (error_banner t) (Some lf) false ;; echo_error m (Some lf) false) u))).
  { intros m. apply G, (keeps_bind (logs lf)); [apply keeps_error; assumption|intros _; apply keeps_error; assumption|exact B]. }
  destruct (fs u f); [apply E| |apply E]. clear E.
  unfold bind at 1. pose proof (keeps_echo (logs lf) lf false K O (settings c) u B) as B1.
  destruct (echo (settings c) (Some lf) false u) as ([?|?], u1); cbn [snd] in B1; [|apply G; exact B1].
  unfold bind at 1. pose proof (keeps_call (logs lf) lf false K O false (new k) u1 B1) as B2.
  destruct (call lf false false (new k) u1) as ([?|?], u2); cbn [snd] in B2; [|apply G; exact B2].
  rewrite (bind_ok (look f) _ u2 (fs u2 f) u2) by reflexivity.
  unfold bind at 1. set (r := read_input k _). pose proof (keeps_call (logs lf) lf false K O false r u2 B2) as B3.
  destruct (call lf false false r u2) as ([[err|j]|?], u3); cbn [snd] in B3; [| |apply G; exact B3].
  - right. exists (screen u3), err. unfold echo_error, log, bind, show, ret, append. cbn [fs screen]. unfold logs in B3. rewrite B3. cbn [snd fs screen].
    rewrite <- app_assoc. split; [reflexivity|]. rewrite update_same. now rewrite append_assoc.
  - apply G. revert u3 B3. apply (keeps_bind (logs lf)); [apply keeps_call; assumption|intros _].
    apply keeps_bind; [apply keeps_call; assumption|intros _; apply keeps_closing; assumption].
Qed.

(** * C62 *)
(** The names. *)
Theorem C62_names c f o b x : proper c ->
  outpath c f (Some o) = o +++ ".hdf5" /\
  (stem o -> logpath (outpath c f (Some o)) = o +++ ".txt") /\
  (~ stem o -> logpath (outpath c f (Some o)) = o +++ ".hdf5.txt") /\
  (exists tag, default_suffix c = tag +++ ".hdf5" /\
    (f = b +++ String "." x -> stem b -> without "." x -> without "/" x ->
     outpath c f None = b +++ tag +++ ".hdf5" /\ logpath (outpath c f None) = b +++ tag +++ ".txt")).
Proof.
  intros Hc. split; [reflexivity|]. split; [|split].
  - intros S0. unfold logpath, root. cbn [outpath]. now rewrite (splitext_stem o "hdf5" S0).
  - intros S0. unfold logpath, root. cbn [outpath]. rewrite (splitext_no_stem o "hdf5" S0) by reflexivity. cbn [fst]. apply append_assoc3.
  - assert (T : exists tag, default_suffix c = tag +++ ".hdf5" /\ forall b, stem (b +++ tag)).
    { destruct Hc as [<-|[<-|[<-|[<-|[]]]]]; [exists "_HA"|exists "_QHA"|exists "_SOEC"|exists "_SEISMIC"]; (split; [reflexivity|]); intros u; exists u, "_"%char;
        eexists; (split; [reflexivity|]); (split; [discriminate|]); (split; [discriminate|reflexivity]). }
    destruct T as (tag & E & T). exists tag. split; [exact E|]. intros -> S0 X Y.
    assert (R0 : root (b +++ String "." x) = b) by (unfold root; now rewrite splitext_stem).
    unfold outpath. rewrite R0, E. split; [reflexivity|].
    unfold logpath, root. change ".hdf5" with (String "." "hdf5"). rewrite <- append_assoc3, (splitext_stem (b +++ tag) "hdf5" (T b)) by reflexivity.
    cbn [fst]. apply append_assoc3.
Qed.
(** The log and the result are different paths. *)
Theorem C62_log_not_result c f o : proper c -> logpath (outpath c f o) <> outpath c f o.
Proof. intros Hc. apply log_not_out, out_last, proper_suffix, Hc. Qed.

(** Only the log and the result change. *)
Theorem C62_frame t c f o silent d k a w q : q <> logpath (outpath c f o) -> q <> outpath c f o ->
  fs (snd (main t c f o silent d k a w)) q = fs w q.
Proof.
  intros Hl Ho. destruct (fs w f) eqn:Hf; [now rewrite main_absent by exact Hf| |];
  (destruct (fs w (logpath (outpath c f o))) eqn:E; [| |now rewrite main_no_log by congruence]);
  rewrite main_begun by congruence; set (out := outpath c f o) in *; set (lf := logpath out) in *.
  all: apply (keeps_body (holds q (fs w q)) t c f lf out silent d k a);
    [apply holds_show|apply holds_log; exact Hl| |unfold holds, begun; cbn [fs]; now apply update_other].
  all: intros j; apply keeps_save;
    [intros; apply holds_both; assumption|intros _; apply holds_log; exact Hl|apply holds_write; exact Ho|apply holds_show].
Qed.

(** A result which exists is kept unless the user says yes. *)
Theorem C62_kept t c f o silent d k a w : proper c -> fs w (outpath c f o) <> Absent -> a <> Ok true ->
  fs (snd (main t c f o silent d k a w)) (outpath c f o) = fs w (outpath c f o).
Proof.
  intros Hc Hx Ha. pose proof (C62_log_not_result c f o Hc) as N.
  destruct (fs w f) eqn:Hf; [now rewrite main_absent by exact Hf| |];
  (destruct (fs w (logpath (outpath c f o))) eqn:E; [| |now rewrite main_no_log by congruence]);
  rewrite main_begun by congruence; set (out := outpath c f o) in *; set (lf := logpath out) in *.
  all: assert (NO : out <> lf) by auto.
  all: apply (keeps_body (holds out (fs w out)) t c f lf out silent d k a);
    [apply holds_show|apply holds_log; exact NO| |unfold holds, begun; cbn [fs]; now apply update_other].
  all: intros j u Hu; unfold save; rewrite (bind_ok (look out) _ u (fs u out) u) by reflexivity.
  all: assert (X : holds out (fs w out) (snd ((do ans <- confirm (question out) a; if (ans : bool) then export_hdf5 lf silent d j out else echo "Results not saved" (Some lf) false) u)))
    by (unfold confirm; destruct a as [[]|e]; [contradiction| |];
        [apply (keeps_echo_loud (holds out (fs w out)) lf (holds_both out (fs w out) lf NO)); exact Hu|exact Hu]).
  all: unfold holds in Hu; rewrite Hu in *; destruct (fs w out); [contradiction|exact X|exact X].
Qed.
Example C62_kept_instance :
  fs sample_world (outpath (qha_command "settings") "run/mgo.yaml" None) = File "old" /\
  fs (snd (sample_run false (Ok false))) "run/mgo_QHA.hdf5" = File "old" /\ fs (snd (sample_run false (Ok true))) "run/mgo_QHA.hdf5" = File "binary".
Proof. split; [|split]; vm_compute; reflexivity. Qed.

(** A completed run: the results are saved as computed from the text of the
    input; the user is asked exactly when the result file exists, and an
    interruption or a no leaves it. *)
Theorem C62_completed t c f o silent d k a w s j : proper c -> filter is_question (screen w) = [] ->
  let out := outpath c f o in
  let lf := logpath out in
  lf <> f -> fs w lf <> Dir -> fs w f = File s ->
  snd (new k) = Ok tt -> snd (read_input k s) = Ok (inr j) ->
  snd (report_input_data j) = Ok tt -> snd (run j) = Ok None -> snd (report_results j) = Ok tt ->
  let (r, v) := main t c f o silent d k a w in
  match fs w out, a with
  | Absent, _ => r = Ok tt /\ fs v out = File (saved j) /\ filter is_question (screen v) = []
  | Dir, Ok true => r = Raises "IsADirectoryError" /\ fs v out = Dir
  | File _, Ok true => r = Ok tt /\ fs v out = File (saved j) /\ filter is_question (screen v) = [(Question, question out)]
  | old, Ok false => r = Ok tt /\ fs v out = old /\ filter is_question (screen v) = [(Question, question out)]
  | old, Raises e => r = Raises e /\ fs v out = old /\ filter is_question (screen v) = [(Question, question out)]
  end.
Proof.
  intros Hc Hq out lf Hlf Hl Hf Hn Hr Hi Hrun Hrep.
  rewrite main_begun by (fold out lf; congruence || assumption). fold out. fold lf.
  assert (NO : out <> lf) by (intros E; symmetry in E; revert E; apply C62_log_not_result; exact Hc).
  assert (NF : f <> lf) by auto.
  set (I := steady lf f out (File s) (fs w out) []).
  assert (B : I (begun t silent lf w)).
  { constructor; unfold begun; cbn [fs screen]; rewrite ?update_same, ?update_other by assumption; eauto.
    rewrite filter_app, Hq. now destruct silent. }
  set (u := begun t silent lf w) in *. clearbody u.
  unfold body. rewrite (bind_ok (look f) _ u (fs u f) u) by reflexivity. rewrite (st_p _ _ _ _ _ _ _ B).
  destruct (total_echo lf f out (File s) (fs w out) [] NF NO (settings c) silent u B) as (u1 & E1 & B1). rewrite (bind_ok _ _ _ _ _ E1).
  destruct (total_call lf f out (File s) (fs w out) [] silent d NF NO (new k) tt Hn u1 B1) as (u2 & E2 & B2). rewrite (bind_ok _ _ _ _ _ E2).
  rewrite (bind_ok (look f) _ u2 (fs u2 f) u2) by reflexivity. rewrite (st_p _ _ _ _ _ _ _ B2).
  destruct (total_call lf f out (File s) (fs w out) [] silent d NF NO (read_input k s) _ Hr u2 B2) as (u3 & E3 & B3). rewrite (bind_ok _ _ _ _ _ E3).
  unfold conclude.
  destruct (total_call lf f out (File s) (fs w out) [] silent d NF NO (report_input_data j) _ Hi u3 B3) as (u4 & E4 & B4). rewrite (bind_ok _ _ _ _ _ E4).
  destruct (total_call lf f out (File s) (fs w out) [] silent d NF NO (run j) _ Hrun u4 B4) as (u5 & E5 & B5). rewrite (bind_ok _ _ _ _ _ E5).
  assert (R5 : total I (if reports c then call lf silent d (report_results j) else ret tt) tt).
  { destruct (reports c); [|apply total_ret]. apply total_call; assumption. }
  destruct (R5 u5 B5) as (u6 & E6 & B6). rewrite (bind_ok _ _ _ _ _ E6).
  clear u u1 u2 u3 u4 u5 B B1 B2 B3 B4 B5 E1 E2 E3 E4 E5 E6 R5.
  unfold save. unfold bind at 1. unfold bind at 1. cbn [look]. destruct B6 as [L6 P6 Q6 A6].
  (* saving, then the closing messages *)
  assert (SV : forall (v : world) asked, fs v out <> Dir -> (exists x, fs v lf = File x) -> filter is_question (screen v) = asked ->
    exists z, export_hdf5 lf silent d j out v = (Ok tt, z) /\ steady lf lf out (fs z lf) (File (saved j)) asked z).
  { intros v asked Dv (x & Lv) Av. unfold export_hdf5.
    assert (W : write out (saved j) v = (Ok tt, {| fs := update (fs v) out (File (saved j)); screen := screen v |})).
    { unfold write. destruct (fs v out); try contradiction; reflexivity. }
    rewrite (bind_ok _ _ _ _ _ W). set (v1 := {| fs := _; screen := _ |}).
    assert (V1 : steady lf out out (File (saved j)) (File (saved j)) asked v1).
    { constructor; unfold v1; cbn [fs screen]; rewrite ?update_same; auto. exists x. rewrite update_other by auto. exact Lv. }
    destruct (total_performs lf out out (File (saved j)) (File (saved j)) asked silent d NO NO (exported j) v1 V1) as (z & Ez & [Z1 Z2 Z3 Z4]).
    exists z. split; [exact Ez|]. now constructor. }
  assert (CL : forall v y asked, (exists x, fs v lf = File x) -> fs v out = y -> filter is_question (screen v) = asked ->
    exists z, closing t lf silent v = (Ok tt, z) /\ fs z out = y /\ filter is_question (screen z) = asked).
  { intros v y asked Lv Ov Av. destruct (total_closing lf out out y y asked silent NO NO t v) as (z & Ez & [Z1 Z2 Z3 Z4]); [now constructor|].
    exists z. auto. }
  assert (ASK : forall ans : bool, forall v, confirm (question out) (Ok ans) v = (Ok ans, {| fs := fs v; screen := screen v ++ [(Question, question out)] |})) by reflexivity.
  rewrite Q6.
  assert (Q7 : filter is_question (screen u6 ++ [(Question, question out)]) = [(Question, question out)]) by (rewrite filter_app, A6; reflexivity).
  assert (SAVES : forall v asked, fs v out <> Dir -> (exists x, fs v lf = File x) -> filter is_question (screen v) = asked ->
    let (r, z) := match export_hdf5 lf silent d j out v with (Ok _, v') => closing t lf silent v' | (Raises e, v') => (Raises e, v') end in
    r = Ok tt /\ fs z out = File (saved j) /\ filter is_question (screen z) = asked).
  { intros v asked Dv Lv Av. destruct (SV v asked Dv Lv Av) as (z & -> & [Z1 Z2 Z3 Z4]). destruct (CL z (File (saved j)) asked Z1 Z3 Z4) as (z' & -> & Z5 & Z6). auto. }
  assert (SKIPS : forall v y asked, fs v out = y -> (exists x, fs v lf = File x) -> filter is_question (screen v) = asked ->
    let (r, z) := match echo "Results not saved" (Some lf) false v with (Ok _, v') => closing t lf silent v' | (Raises e, v') => (Raises e, v') end in
    r = Ok tt /\ fs z out = y /\ filter is_question (screen z) = asked).
  { intros v y asked Dv Lv Av. destruct (total_echo lf out out y y asked NO NO "Results not saved" false v) as (z & -> & [Z1 Z2 Z3 Z4]); [now constructor|].
    destruct (CL z y asked Z1 Z3 Z4) as (z' & -> & Z5 & Z6). auto. }
  destruct (fs w out) as [|old|] eqn:Hout.
  - apply SAVES; [rewrite Q6; discriminate|exact L6|exact A6].
  - destruct a as [[]|e].
    + unfold bind at 1. rewrite ASK. apply SAVES; cbn [fs screen]; [rewrite Q6; discriminate|exact L6|exact Q7].
    + unfold bind at 1. rewrite ASK. apply SKIPS; cbn [fs screen]; [exact Q6|exact L6|exact Q7].
    + unfold confirm, bind, show, raise. cbn [fs screen]. auto.
  - destruct a as [[]|e].
    + unfold bind at 1. rewrite ASK. unfold export_hdf5, bind, write. cbn [fs]. rewrite Q6. cbn [fs]. auto.
    + unfold bind at 1. rewrite ASK. apply SKIPS; cbn [fs screen]; [exact Q6|exact L6|exact Q7].
    + unfold confirm, bind, show, raise. cbn [fs screen]. auto.
Qed.

(** Without an output name the input is never written. *)
Lemma default_log_not_input c f : proper c -> logpath (outpath c f None) <> f /\ outpath c f None <> f.
Proof.
  intros Hc.
  assert (T : exists r, default_suffix c = String "_" (r +++ ".hdf5") /\ without "/" r).
  { destruct Hc as [<-|[<-|[<-|[<-|[]]]]]; [exists "HA"|exists "QHA"|exists "SOEC"|exists "SEISMIC"]; split; reflexivity. }
  destruct T as (r & E & W). destruct (splitext_parts f) as (P & X).
  assert (NS : forall s, root f +++ String "_" s <> f).
  { intros s H. rewrite <- P in H at 2. apply append_inj in H. destruct X as [X|(x & X & _)]; rewrite X in H; discriminate. }
  assert (L : logpath (outpath c f None) = root f +++ String "_" (r +++ ".txt")).
  { unfold logpath, outpath. rewrite E. change (String "_" (r +++ ".hdf5")) with (String "_" r +++ String "." "hdf5"). rewrite <- append_assoc3.
    unfold root at 1. rewrite splitext_stem; [|exists (root f), "_"%char, r; repeat split; auto; discriminate|reflexivity|reflexivity].
    cbn [fst]. now rewrite append_assoc3. }
  rewrite L. unfold outpath. rewrite E. split; apply NS.
Qed.
Theorem C62_input_kept t c f silent d k a w : proper c -> fs (snd (main t c f None silent d k a w)) f = fs w f.
Proof. intros Hc. destruct (default_log_not_input c f Hc) as (A & B). apply C62_frame; auto. Qed.

(** With an output name the log may be the input: the input is emptied before
    it is read, so what it contained makes no difference to anything. *)
Theorem C62_input_lost_refuted t c o silent d k a w s1 s2 : stem o ->
  let f := o +++ ".txt" in
  let run s := main t c f (Some o) silent d k a {| fs := update (fs w) f (File s); screen := screen w |} in
  run s1 = run s2.
Proof.
  intros S0. cbv beta zeta. set (f := o +++ ".txt").
  assert (L : logpath (outpath c f (Some o)) = f).
  { unfold logpath, root. cbn [outpath]. change ".hdf5" with (String "." "hdf5"). now rewrite splitext_stem. }
  assert (A : forall s, fs {| fs := update (fs w) f (File s); screen := screen w |} f = File s) by (intros s; cbn [fs]; apply update_same).
  rewrite !main_begun; rewrite ?L, ?A; try discriminate.
  unfold begun. cbn [fs screen]. now rewrite !update_twice.
Qed.
(** The same holds of any file which has the name of the log: no question. *)
Theorem C62_log_unasked_refuted : exists t c f o d k a w,
  fs w "notes.txt" = File "my notes" /\ logpath (outpath c f o) = "notes.txt" /\
  fs (snd (main t c f o false d k a w)) "notes.txt" <> fs w "notes.txt" /\
  filter is_question (screen (snd (main t c f o false d k a w))) = [].
Proof.
  exists sample_texts, (qha_command "settings"), "mgo.yaml", (Some "notes"), false, sample_calculator, (Ok false),
    {| fs := fun p => if String.eqb p "mgo.yaml" then File "good" else if String.eqb p "notes.txt" then File "my notes" else Absent; screen := [] |}.
  split; [reflexivity|]. split; [reflexivity|]. split; [|vm_compute; reflexivity]. vm_compute. discriminate.
Qed.

(** eosfit with an output name fails before anything happens; without one it
    logs beside the input, or over it when the input is called .log. *)
Theorem C62_eosfit_named t c f o k w : fs w f <> Absent -> eosfit t c f (Some o) k w = (Raises "UnboundLocalError", w).
Proof. intros H. unfold eosfit, bind. cbn [look]. destruct (fs w f); [contradiction|reflexivity|reflexivity]. Qed.
Theorem C62_eosfit_log_name b x : stem b -> without "." x -> without "/" x -> eosfit_log (b +++ String "." x) = b +++ ".log".
Proof. intros. unfold eosfit_log, root. now rewrite splitext_stem. Qed.
Theorem C62_eosfit_input_lost_refuted t c b k w s1 s2 : stem b ->
  let f := b +++ ".log" in
  let run s := eosfit t c f None k {| fs := update (fs w) f (File s); screen := screen w |} in
  run s1 = run s2.
Proof.
  intros S0. cbv beta zeta. set (f := b +++ ".log").
  assert (L : eosfit_log f = f). { unfold f. now apply (C62_eosfit_log_name b "log"). }
  assert (X : forall s, exists m : M unit, eosfit t c f None k {| fs := update (fs w) f (File s); screen := screen w |} =
    m {| fs := update (fs w) f (File (line "")); screen := screen w |} /\
    m = (echo_highlight (title t) (Some f) false ;; (do m <- look f; match m with
      | File _ => echo (settings c) (Some f) false ;; call f false false (new k) ;; (do m <- look f;
        do r <- call f false false (read_input k (match m with File s => s | _ => "" end));
        match r with
        | inl err => echo_error (error_banner t) None false ;; echo_error err (Some f) false
        | inr j => call f false false (report_input_data j) ;; call f false false (run j) ;; closing t f false
        end)
      | _ => echo_error (error_banner t) (Some f) false ;; echo_error (f +++ " is not a file") (Some f) false end))).
  { intros s. eexists. split; [|reflexivity]. unfold eosfit. rewrite L.
    rewrite (bind_ok (look f) _ _ (File s) {| fs := update (fs w) f (File s); screen := screen w |})
      by (unfold look; cbn [fs]; now rewrite update_same).
    rewrite (bind_ok (init_logfile (Some f)) _ _ tt {| fs := update (fs w) f (File (line "")); screen := screen w |}); [reflexivity|].
    unfold init_logfile, write. cbn [fs screen]. now rewrite update_same, update_twice. }
  destruct (X s1) as (m1 & -> & ->). destruct (X s2) as (m2 & -> & ->). reflexivity.
Qed.
Example C62_stem_instance : stem "run/mgo" /\ ~ stem "" /\ ~ stem "run/" /\ root "run/.hidden" = "run/.hidden" /\ root "a.b/c" = "a.b/c" /\ root "x.tar.gz" = "x.tar".
Proof.
  split; [exists "run/mg", "o"%char, ""; repeat split; auto; discriminate|]. split; [|split].
  - intros (a & c & s & E & _). destruct a; discriminate.
  - intros (a & c & s & E & _ & N & W).
    destruct a as [|x a]; [injection E as <- <-; discriminate W|]. injection E as <- E.
    destruct a as [|x a]; [injection E as <- <-; discriminate W|]. injection E as <- E.
    destruct a as [|x a]; [injection E as <- <-; discriminate W|]. injection E as <- E.
    destruct a as [|x a]; [injection E as <- _; contradiction|]. injection E as _ E. destruct a; discriminate.
  - split; [|split]; reflexivity.
Qed.

Print Assumptions C61_quiet_same_files.
Print Assumptions C61_log_complete.
Print Assumptions C61_quiet_screen.
Print Assumptions C61_not_saved_said_refuted.
Print Assumptions C61_fresh.
Print Assumptions C61_eosfit_log.
Print Assumptions C62_names.
Print Assumptions C62_log_not_result.
Print Assumptions C62_frame.
Print Assumptions C62_kept.
Print Assumptions C62_completed.
Print Assumptions C62_input_kept.
Print Assumptions C62_input_lost_refuted.
Print Assumptions C62_log_unasked_refuted.
Print Assumptions C62_eosfit_named.
Print Assumptions C62_eosfit_log_name.
Print Assumptions C62_eosfit_input_lost_refuted.
