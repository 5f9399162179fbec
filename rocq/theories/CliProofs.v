From Coq Require Import String Ascii List Bool Arith Lia FunctionalExtensionality.
From Verif Require Import DecimalModel DecimalProofs CliModel.
Import ListNotations.
Open Scope string_scope.
Open Scope list_scope.
Open Scope nat_scope.

(** * Paths *)
Definition without (c : ascii) (s : string) : Prop := rfind c s = None.
(** Some character other than a dot after the last slash. *)
Definition stem (p : string) : Prop :=
  exists a c s, p = a +++ String c s /\ c <> "."%char /\ c <> "/"%char /\ without "/" s.

Lemma rfind_app c u v : rfind c (u +++ v) = match rfind c v with Some i => Some (String.length u + i) | None => rfind c u end.
Proof.
  induction u as [|a u IH]; cbn [String.append rfind String.length].
  - destruct (rfind c v); reflexivity.
  - rewrite IH. destruct (rfind c v); [reflexivity|]. reflexivity.
Qed.
Lemma prefix_suffix n s : prefix n s +++ suffix n s = s.
Proof. revert s; induction n; destruct s; cbn [prefix suffix String.append]; try reflexivity. now rewrite IHn. Qed.
Lemma prefix_app u v : prefix (String.length u) (u +++ v) = u.
Proof. induction u; cbn [String.length prefix String.append]; [now destruct v|now rewrite IHu]. Qed.
Lemma suffix_app u v : suffix (String.length u) (u +++ v) = v.
Proof. induction u; cbn [String.length suffix String.append]; [now destruct v|assumption]. Qed.
Lemma rfind_split c s i : rfind c s = Some i ->
  s = prefix i s +++ String c (suffix (S i) s) /\ without c (suffix (S i) s) /\ String.length (prefix i s) = i.
Proof.
  revert i; induction s as [|a s IH]; intros i H; cbn [rfind] in H; [discriminate|].
  destruct (rfind c s) as [j|] eqn:E.
  - injection H as <-. destruct (IH j eq_refl) as (A & B & C). cbn [prefix suffix String.append String.length]. split; [|split].
    + f_equal. exact A.
    + exact B.
    + now rewrite C.
  - destruct (Ascii.eqb_spec a c) as [->|]; [|discriminate]. injection H as <-. cbn [prefix suffix String.append String.length].
    split; [reflexivity|]. split; [|reflexivity]. unfold without. destruct s; exact E.
Qed.
Lemma has_other_app c u v : has_other c (u +++ v) = has_other c u || has_other c v.
Proof. induction u; cbn [String.append has_other]; [reflexivity|]. rewrite IHu. now rewrite orb_assoc. Qed.
Lemma suffix_shift n u v : n <= String.length u -> suffix n (u +++ v) = suffix n u +++ v.
Proof.
  revert u; induction n; intros u H; destruct u; cbn [suffix String.append String.length] in *; try reflexivity; [lia|].
  apply IHn. lia.
Qed.
Lemma suffix_length n s : String.length (suffix n s) = String.length s - n.
Proof. revert s; induction n; destruct s; cbn [suffix String.length]; try reflexivity. apply IHn. Qed.

Lemma first_bound a c s : c <> "/"%char -> without "/" s ->
  (match rfind "/" (a +++ String c s) with None => 0 | Some i => S i end) <= String.length a.
Proof.
  intros Hc Hs. rewrite rfind_app. cbn [rfind]. rewrite Hs. destruct (Ascii.eqb_spec c "/") as [->|]; [contradiction|].
  destruct (rfind "/" a) as [i|] eqn:E; [|lia]. destruct (rfind_split _ _ _ E) as (A & _ & L).
  rewrite A, append_length. cbn [String.length]. lia.
Qed.

Lemma splitext_stem b x : stem b -> without "." x -> without "/" x -> splitext (b +++ String "." x) = (b, String "." x).
Proof.
  intros (a & c & s & -> & Hd & Hs & N) Hx Hy. unfold splitext.
  set (b := a +++ String c s).
  assert (D : rfind "." (b +++ String "." x) = Some (String.length b)).
  { rewrite rfind_app. cbn [rfind]. rewrite Hx. cbn. f_equal. lia. }
  assert (F : rfind "/" (b +++ String "." x) = rfind "/" b).
  { rewrite rfind_app. cbn [rfind]. rewrite Hy. reflexivity. }
  rewrite D, F. pose proof (first_bound a c s Hs N) as B. fold b in B.
  set (k := match rfind "/" b with None => 0 | Some i => S i end) in *.
  assert (K : k <= String.length b). { unfold b. rewrite append_length. cbn [String.length]. lia. }
  assert (E : prefix (String.length b - k) (suffix k (b +++ String "." x)) = suffix k b).
  { rewrite suffix_shift by exact K. rewrite <- suffix_length. apply prefix_app. }
  rewrite E. assert (O : has_other "." (suffix k b) = true).
  { unfold b. rewrite suffix_shift by exact B. rewrite has_other_app. cbn [has_other].
    destruct (Ascii.eqb_spec c "."); [contradiction|]. cbn. now rewrite orb_true_r. }
  rewrite O. apply Nat.leb_le in K. rewrite K. cbn [andb]. now rewrite prefix_app, suffix_app.
Qed.

Lemma rfind_none_app c u v : without c (u +++ v) -> without c u /\ without c v.
Proof. unfold without. rewrite rfind_app. destruct (rfind c v); [discriminate|]. tauto. Qed.

(** What splitext cuts off: nothing, or a dot and no further dot or slash. *)
Lemma splitext_parts p : fst (splitext p) +++ snd (splitext p) = p /\
  (snd (splitext p) = "" \/ exists x, snd (splitext p) = String "." x /\ without "." x /\ without "/" x).
Proof.
  unfold splitext. destruct (rfind "." p) as [d|] eqn:D; [|cbn [fst snd]; split; [apply append_nil|now left]].
  destruct (_ && _) eqn:C; [|cbn [fst snd]; split; [apply append_nil|now left]].
  cbn [fst snd]. split; [apply prefix_suffix|right].
  apply andb_prop in C. destruct C as (C & _). apply Nat.leb_le in C.
  destruct (rfind_split _ _ _ D) as (A & B & L). exists (suffix (S d) p). split; [|split; [exact B|]].
  - apply (f_equal (suffix d)) in A. rewrite A at 1. rewrite <- L at 1. apply suffix_app.
  - unfold without. destruct (rfind "/" (suffix (S d) p)) as [i|] eqn:E; [|reflexivity]. exfalso.
    assert (X : rfind "/" p = Some (S (d + i))).
    { rewrite A, rfind_app. cbn [rfind]. rewrite E, L. f_equal. lia. }
    rewrite X in C. lia.
Qed.

Lemma append_inj u v w : u +++ v = u +++ w -> v = w.
Proof. induction u; cbn [String.append]; [tauto|]. intros H. injection H as H. auto. Qed.
Lemma append_assoc3 u v w : (u +++ v) +++ w = u +++ v +++ w. Proof. apply append_assoc. Qed.
Lemma stem_suffix b a c s : c <> "."%char -> c <> "/"%char -> without "/" s -> stem (b +++ a +++ String c s).
Proof. intros. exists (b +++ a), c, s. rewrite append_assoc3. auto. Qed.

(** * Programs *)
Lemma bind_ok {A B} (m : M A) (k : A -> M B) w a v : m w = (Ok a, v) -> bind m k w = k a v.
Proof. unfold bind. now intros ->. Qed.
Lemma update_same f p n : update f p n p = n. Proof. unfold update. now rewrite String.eqb_refl. Qed.
Lemma update_other f p n q : q <> p -> update f p n q = f q.
Proof. unfold update. intros H. destruct (String.eqb_spec q p); [contradiction|reflexivity]. Qed.

(** A property of the world which a program keeps, whatever its outcome. *)
Definition keeps {A} (I : world -> Prop) (m : M A) : Prop := forall w, I w -> I (snd (m w)).
Lemma keeps_ret {A} I (a : A) : keeps I (ret a). Proof. intros w H. exact H. Qed.
Lemma keeps_raise {A} I e : keeps I (@raise A e). Proof. intros w H. exact H. Qed.
Lemma keeps_look I p : keeps I (look p). Proof. intros w H. exact H. Qed.
Lemma keeps_bind {A B} I (m : M A) (k : A -> M B) : keeps I m -> (forall a, keeps I (k a)) -> keeps I (bind m k).
Proof.
  intros H K w Hw. unfold bind. specialize (H w Hw). destruct (m w) as ([a|e], v); cbn [snd] in *; [apply K|]; exact H.
Qed.

Section Keeps.
Variable I : world -> Prop.
Variable logfile : string.
Variable silent : bool.
(** The ways a command touches the world outside export_hdf5. *)
Variable both : forall k msg, k <> Question -> keeps I (show k msg ;; log (Some logfile) msg).
Variable only : silent = true -> forall msg, keeps I (log (Some logfile) msg).
Lemma keeps_echo_loud msg : keeps I (echo msg (Some logfile) false).
Proof. apply both. discriminate. Qed.
Lemma keeps_echo msg : keeps I (echo msg (Some logfile) silent).
Proof.
  unfold echo. destruct silent; cbn [negb].
  - apply keeps_bind; [apply keeps_ret|]. intros _. now apply only.
  - apply both. discriminate.
Qed.
Lemma keeps_highlight msg : keeps I (echo_highlight msg (Some logfile) silent).
Proof.
  unfold echo_highlight. destruct silent; cbn [negb].
  - apply keeps_bind; [apply keeps_ret|]. intros _. now apply only.
  - apply both. discriminate.
Qed.
Lemma keeps_error msg b : keeps I (echo_error msg (Some logfile) b). Proof. apply both. discriminate. Qed.
Lemma keeps_warning msg b : keeps I (echo_warning msg (Some logfile) b). Proof. apply both. discriminate. Qed.
Lemma keeps_performs debug l : keeps I (performs logfile silent debug l).
Proof.
  induction l as [|e l IH]; cbn [performs]; [apply keeps_ret|]. apply keeps_bind; [|intros _; exact IH].
  destruct e; cbn [perform]; [apply keeps_echo|apply keeps_echo_loud|apply keeps_warning|].
  destruct debug; [apply keeps_echo|apply keeps_ret].
Qed.
Lemma keeps_call {A} debug (m : method A) : keeps I (call logfile silent debug m).
Proof.
  unfold call. apply keeps_bind; [apply keeps_performs|]. intros _. destruct (snd m); [apply keeps_ret|apply keeps_raise].
Qed.
Lemma keeps_closing t : keeps I (closing t logfile silent).
Proof. unfold closing. repeat (apply keeps_bind; [apply keeps_highlight|intros _]). apply keeps_highlight. Qed.
Variables (out : string) (debug : bool) (j : job) (answer : result bool).
Variable saves : keeps I (write out (saved j)).
Variable asks : forall q, keeps I (show Question q).
Lemma keeps_export : keeps I (export_hdf5 logfile silent debug j out).
Proof. unfold export_hdf5. apply keeps_bind; [apply saves|intros _; apply keeps_performs]. Qed.
Lemma keeps_confirm q : keeps I (confirm q answer).
Proof. unfold confirm. apply keeps_bind; [apply asks|intros _]. destruct answer; [apply keeps_ret|apply keeps_raise]. Qed.
Lemma keeps_save : keeps I (save logfile out silent debug j answer).
Proof.
  unfold save. apply keeps_bind; [apply keeps_look|]. intros n.
  assert (X : keeps I (do ans <- confirm (question out) answer;
    if (ans : bool) then export_hdf5 logfile silent debug j out else echo "Results not saved" (Some logfile) false)).
  { apply keeps_bind; [apply keeps_confirm|]. intros b. destruct b; [apply keeps_export|apply keeps_echo_loud]. }
  destruct n; [apply keeps_export|exact X|exact X].
Qed.
Lemma keeps_conclude t c : keeps I (conclude t c logfile out silent debug j answer).
Proof.
  unfold conclude. apply keeps_bind; [apply keeps_call|intros _]. apply keeps_bind; [apply keeps_call|]. intros e. destruct e.
  - apply keeps_bind; [apply keeps_error|intros _; apply keeps_error].
  - apply keeps_bind; [destruct (reports c); [apply keeps_call|apply keeps_ret]|intros _].
    apply keeps_bind; [apply keeps_save|intros _; apply keeps_closing].
Qed.
End Keeps.

(** * Frame: only the log and the result change *)
Lemma touches (P : string -> Prop) p text n q w : (q <> p) -> fs (snd (append p text w)) q = n -> fs w q = n.
Proof.
  intros D. unfold append. destruct (fs w p); cbn [snd fs]; try tauto; rewrite update_other by exact D; tauto.
Qed.
Lemma append_other p text q w : q <> p -> fs (snd (append p text w)) q = fs w q.
Proof. intros D. unfold append. destruct (fs w p); cbn [snd fs]; try reflexivity; apply update_other; exact D. Qed.
Lemma write_other p text q w : q <> p -> fs (snd (write p text w)) q = fs w q.
Proof. intros D. unfold write. destruct (fs w p); cbn [snd fs]; try reflexivity; apply update_other; exact D. Qed.

Section Frame.
Variables (q : string) (n : node) (logfile : string).
Variable other : q <> logfile.
Definition holds (w : world) : Prop := fs w q = n.
Lemma holds_show k msg : keeps holds (show k msg). Proof. intros w H. exact H. Qed.
Lemma holds_log msg : keeps holds (log (Some logfile) msg).
Proof. intros w H. unfold holds, log in *. rewrite append_other by exact other. exact H. Qed.
Lemma holds_both k msg : k <> Question -> keeps holds (show k msg ;; log (Some logfile) msg).
Proof. intros _. apply keeps_bind; [apply holds_show|intros _; apply holds_log]. Qed.
Lemma holds_write p s : q <> p -> keeps holds (write p s).
Proof. intros D w H. unfold holds in *. rewrite write_other by exact D. exact H. Qed.
Lemma holds_error_no_log msg s : keeps holds (echo_error msg None s).
Proof. unfold echo_error, log. apply keeps_bind; [apply holds_show|intros _; apply keeps_ret]. Qed.
Lemma holds_confirm s a : keeps holds (confirm s a).
Proof. unfold confirm. apply keeps_bind; [apply holds_show|intros _]. destruct a; [apply keeps_ret|apply keeps_raise]. Qed.
End Frame.

(** * Silent and not silent *)
Definition is_loud (s : kind * string) : bool := match fst s with Error | Warning | Question => true | _ => false end.
Definition loud (l : list (kind * string)) : list (kind * string) := filter is_loud l.
Definition alike {A} (m1 m2 : M A) : Prop := forall w1 w2, fs w1 = fs w2 -> loud (screen w1) = loud (screen w2) ->
  fst (m1 w1) = fst (m2 w2) /\ fs (snd (m1 w1)) = fs (snd (m2 w2)) /\ loud (screen (snd (m1 w1))) = loud (screen (snd (m2 w2))).
Lemma alike_bind {A B} (m1 m2 : M A) (k1 k2 : A -> M B) : alike m1 m2 -> (forall a, alike (k1 a) (k2 a)) -> alike (bind m1 k1) (bind m2 k2).
Proof.
  intros H K w1 w2 F L. unfold bind. destruct (H w1 w2 F L) as (R1 & F1 & L1).
  destruct (m1 w1) as ([a|e], v1); destruct (m2 w2) as ([b|e'], v2); cbn [fst snd] in *; try discriminate R1.
  - injection R1 as <-. apply K; assumption.
  - injection R1 as <-. cbn [fst snd]. auto.
Qed.
Lemma alike_ret {A} (a : A) : alike (ret a) (ret a). Proof. intros w1 w2 F L. cbn. auto. Qed.
Lemma alike_raise {A} e : alike (@raise A e) (raise e). Proof. intros w1 w2 F L. cbn. auto. Qed.
Lemma alike_look p : alike (look p) (look p). Proof. intros w1 w2 F L. cbn. rewrite F. auto. Qed.
Lemma loud_app a b : loud (a ++ b) = loud a ++ loud b. Proof. apply filter_app. Qed.
Lemma alike_show k m : alike (show k m) (show k m).
Proof. intros w1 w2 F L. cbn [show fst snd fs screen]. rewrite !loud_app, L. auto. Qed.
Lemma alike_quiet k m : is_loud (k, m) = false -> alike (ret tt) (show k m).
Proof.
  intros Q w1 w2 F L. cbn [ret show fst snd fs screen]. rewrite loud_app. unfold loud at 3. cbn [filter]. rewrite Q, app_nil_r. auto.
Qed.
Lemma alike_append p s : alike (append p s) (append p s).
Proof. intros w1 w2 F L. unfold append. rewrite F. destruct (fs w2 p); cbn [fst snd fs screen]; auto. Qed.
Lemma alike_write p s : alike (write p s) (write p s).
Proof. intros w1 w2 F L. unfold write. rewrite F. destruct (fs w2 p); cbn [fst snd fs screen]; auto. Qed.
Lemma alike_log o s : alike (log o s) (log o s). Proof. destruct o; [apply alike_append|apply alike_ret]. Qed.
Lemma alike_echo s o : alike (echo s o true) (echo s o false).
Proof. unfold echo. cbn [negb]. apply alike_bind; [now apply alike_quiet|intros _; apply alike_log]. Qed.
Lemma alike_echo_same s o b : alike (echo s o b) (echo s o b).
Proof. unfold echo. apply alike_bind; [destruct b; [apply alike_ret|apply alike_show]|intros _; apply alike_log]. Qed.
Lemma alike_highlight s o : alike (echo_highlight s o true) (echo_highlight s o false).
Proof. unfold echo_highlight. cbn [negb]. apply alike_bind; [now apply alike_quiet|intros _; apply alike_log]. Qed.
Lemma alike_error s o b c : alike (echo_error s o b) (echo_error s o c).
Proof. unfold echo_error. apply alike_bind; [apply alike_show|intros _; apply alike_log]. Qed.
Lemma alike_warning s o b c : alike (echo_warning s o b) (echo_warning s o c).
Proof. unfold echo_warning. apply alike_bind; [apply alike_show|intros _; apply alike_log]. Qed.
Lemma alike_performs lf d l : alike (performs lf true d l) (performs lf false d l).
Proof.
  induction l as [|e l IH]; cbn [performs]; [apply alike_ret|]. apply alike_bind; [|intros _; exact IH].
  destruct e; cbn [perform]; [apply alike_echo|apply alike_echo_same|apply alike_warning|].
  destruct d; [apply alike_echo|apply alike_ret].
Qed.
Lemma alike_call {A} lf d (m : method A) : alike (call lf true d m) (call lf false d m).
Proof. unfold call. apply alike_bind; [apply alike_performs|]. intros _. destruct (snd m); [apply alike_ret|apply alike_raise]. Qed.
Lemma alike_confirm s a : alike (confirm s a) (confirm s a).
Proof. unfold confirm. apply alike_bind; [apply alike_show|]. intros _. destruct a; [apply alike_ret|apply alike_raise]. Qed.
Lemma alike_export lf d j o : alike (export_hdf5 lf true d j o) (export_hdf5 lf false d j o).
Proof. unfold export_hdf5. apply alike_bind; [apply alike_write|intros _; apply alike_performs]. Qed.
Lemma alike_closing t lf : alike (closing t lf true) (closing t lf false).
Proof. unfold closing. repeat (apply alike_bind; [apply alike_highlight|intros _]). apply alike_highlight. Qed.
Lemma alike_save lf out d j a : alike (save lf out true d j a) (save lf out false d j a).
Proof.
  unfold save. apply alike_bind; [apply alike_look|]. intros n.
  assert (X : alike (do ans <- confirm (question out) a; if ans : bool then export_hdf5 lf true d j out else echo "Results not saved" (Some lf) false)
                    (do ans <- confirm (question out) a; if ans : bool then export_hdf5 lf false d j out else echo "Results not saved" (Some lf) false)).
  { apply alike_bind; [apply alike_confirm|]. intros b. destruct b; [apply alike_export|apply alike_echo_same]. }
  destruct n; [apply alike_export|exact X|exact X].
Qed.
Lemma alike_conclude t c lf out d j a : alike (conclude t c lf out true d j a) (conclude t c lf out false d j a).
Proof.
  unfold conclude. apply alike_bind; [apply alike_call|intros _]. apply alike_bind; [apply alike_call|intros e].
  destruct e.
  - apply alike_bind; [apply alike_error|intros _; apply alike_error].
  - apply alike_bind; [destruct (reports c); [apply alike_call|apply alike_ret]|intros _].
    apply alike_bind; [apply alike_save|intros _; apply alike_closing].
Qed.
Lemma alike_body t c f lf out d k a : alike (body t c f lf out true d k a) (body t c f lf out false d k a).
Proof.
  unfold body. apply alike_bind; [apply alike_look|]. intros n.
  assert (X : forall m, alike (echo_error (error_banner t) (Some lf) false ;; echo_error m (Some lf) false) (echo_error (error_banner t) (Some lf) false ;; echo_error m (Some lf) false)).
  { intros m. apply alike_bind; [apply alike_error|intros _; apply alike_error]. }
  destruct n; [apply X| |apply X].
  apply alike_bind; [apply alike_echo|intros _]. apply alike_bind; [apply alike_call|intros _].
  apply alike_bind; [apply alike_look|intros m]. apply alike_bind; [apply alike_call|intros r].
  destruct r; [|apply alike_conclude]. apply alike_bind; [apply alike_error|intros _; apply alike_error].
Qed.
Lemma alike_main t c f o d k a : alike (main t c f o true d k a) (main t c f o false d k a).
Proof.
  unfold main. apply alike_bind; [apply alike_look|]. intros n.
  destruct n; [apply alike_raise| |]; (apply alike_bind; [apply alike_write|intros _]);
    (apply alike_bind; [apply alike_highlight|intros _; apply alike_body]).
Qed.

(** * The log is the conversation *)
Definition is_question (s : kind * string) : bool := match fst s with Question => true | _ => false end.
Fixpoint text (l : list (kind * string)) : string := match l with [] => "" | (_, m) :: l => line m +++ text l end.
Definition spoken (l : list (kind * string)) : list (kind * string) := filter (fun s => negb (is_question s)) l.
Definition logs (logfile : string) (w : world) : Prop := fs w logfile = File (line "" +++ text (spoken (screen w))).
Lemma text_app a b : text (a ++ b) = text a +++ text b.
Proof. induction a as [|(k, m) a IH]; cbn [text app]; [reflexivity|]. now rewrite IH, append_assoc. Qed.
Lemma spoken_app a b : spoken (a ++ b) = spoken a ++ spoken b. Proof. apply filter_app. Qed.
Lemma logs_both lf k msg : k <> Question -> keeps (logs lf) (show k msg ;; log (Some lf) msg).
Proof.
  intros N w H. unfold logs in *. unfold bind, show, log, append. cbn [fs]. rewrite H. cbn [snd fs screen]. rewrite update_same.
  rewrite spoken_app, text_app. f_equal. rewrite append_assoc. f_equal. f_equal.
  unfold spoken. cbn [filter is_question fst]. destruct k; try contradiction; cbn [negb text]; try (now rewrite append_nil); cbn; now rewrite append_nil.
Qed.
Lemma logs_write lf p s : p <> lf -> keeps (logs lf) (write p s).
Proof.
  intros D w H. unfold logs in *. unfold write. destruct (fs w p); cbn [snd fs screen]; try exact H; rewrite update_other by auto; exact H.
Qed.
Lemma logs_question lf q : keeps (logs lf) (show Question q).
Proof. intros w H. unfold logs in *. cbn [show snd fs screen]. rewrite spoken_app. cbn. now rewrite app_nil_r. Qed.

(** After init_logfile and the title. *)
Definition begun (t : texts) (silent : bool) (lf : string) (w : world) : world :=
  {| fs := update (fs w) lf (File (line "" +++ line (title t)));
     screen := screen w ++ (if silent then [] else [(Highlight, title t)]) |}.
Lemma update_twice f p a b : update (update f p a) p b = update f p b.
Proof. extensionality q. unfold update. now destruct (String.eqb q p). Qed.
Lemma main_begun t c f o silent d k a w : fs w f <> Absent -> fs w (logpath (outpath c f o)) <> Dir ->
  main t c f o silent d k a w = body t c f (logpath (outpath c f o)) (outpath c f o) silent d k a (begun t silent (logpath (outpath c f o)) w).
Proof.
  intros Hf Hl. set (out := outpath c f o) in *. set (lf := logpath out) in *.
  unfold main. unfold bind at 1. cbn [look].
  assert (X : (init_logfile (Some lf) ;; echo_highlight (title t) (Some lf) silent ;; body t c f lf out silent d k a) w =
              body t c f lf out silent d k a (begun t silent lf w)).
  { unfold init_logfile, write, echo_highlight, log, append, bind. unfold begun.
    destruct (fs w lf) eqn:E; [| |contradiction]; destruct silent; cbn [negb ret show fs screen]; rewrite update_same, update_twice, ?app_nil_r; reflexivity. }
  destruct (fs w f); [contradiction|exact X|exact X].
Qed.
Lemma main_no_log t c f o silent d k a w : fs w f <> Absent -> fs w (logpath (outpath c f o)) = Dir ->
  main t c f o silent d k a w = (Raises "IsADirectoryError", w).
Proof.
  intros Hf Hl. unfold main, bind. cbn [look]. destruct (fs w f); [contradiction| |]; unfold init_logfile, write; rewrite Hl; reflexivity.
Qed.
Lemma main_absent t c f o silent d k a w : fs w f = Absent -> main t c f o silent d k a w = (Raises "BadParameter", w).
Proof. intros H. unfold main, bind. cbn [look]. now rewrite H. Qed.
Lemma begun_logs t lf w : screen w = [] -> logs lf (begun t false lf w).
Proof. intros H. unfold logs, begun. cbn [fs screen]. rewrite update_same, H. cbn. now rewrite append_nil. Qed.

(** Names. *)
Lemma append_last u v a b : u +++ String a "" = v +++ String b "" -> a = b.
Proof.
  revert v; induction u as [|x u IH]; intros [|y v] H; cbn [String.append] in H.
  - now injection H.
  - injection H as _ H. destruct v; discriminate.
  - injection H as _ H. destruct u; discriminate.
  - injection H as _ H. eauto.
Qed.
Lemma out_last c f o : (exists s, default_suffix c = s +++ ".hdf5") -> exists p, outpath c f o = p +++ ".hdf5".
Proof.
  intros (s & E). unfold outpath. destruct o as [o|]; [now exists o|]. exists (root f +++ s). now rewrite E, append_assoc.
Qed.
Lemma log_not_out out : (exists p, out = p +++ ".hdf5") -> logpath out <> out.
Proof.
  intros (p & ->) E. unfold logpath in E. set (r := root _) in E.
  assert (X : (r +++ ".tx") +++ String "t" "" = (p +++ ".hdf") +++ String "5" "").
  { rewrite !append_assoc. exact E. }
  apply append_last in X. discriminate.
Qed.
Lemma has_other_split c s : has_other c s = true -> exists a b r, s = a +++ String b r /\ b <> c.
Proof.
  induction s as [|x s IH]; cbn [has_other]; [discriminate|]. destruct (Ascii.eqb_spec x c) as [->|N]; cbn [negb orb].
  - intros H. destruct (IH H) as (a & b & r & -> & D). exists (String c a), b, r. split; [reflexivity|exact D].
  - intros _. exists "", x, s. split; [reflexivity|exact N].
Qed.
Lemma last_component p : exists k, (match rfind "/" p with None => 0 | Some i => S i end) = k /\ k <= String.length p /\ without "/" (suffix k p).
Proof.
  eexists. split; [reflexivity|]. destruct (rfind "/" p) as [i|] eqn:E.
  - destruct (rfind_split _ _ _ E) as (A & B & L). split; [|exact B].
    apply (f_equal String.length) in A. rewrite append_length, L in A. cbn [String.length] in A. lia.
  - split; [lia|]. destruct p; exact E.
Qed.
Lemma splitext_no_stem o x : ~ stem o -> without "." x -> without "/" x -> splitext (o +++ String "." x) = (o +++ String "." x, "").
Proof.
  intros N Hx Hy. unfold splitext.
  assert (D : rfind "." (o +++ String "." x) = Some (String.length o)).
  { rewrite rfind_app. cbn [rfind]. rewrite Hx. cbn. f_equal. lia. }
  assert (F : rfind "/" (o +++ String "." x) = rfind "/" o).
  { rewrite rfind_app. cbn [rfind]. rewrite Hy. reflexivity. }
  rewrite D, F. destruct (last_component o) as (k & -> & K & W).
  assert (E : prefix (String.length o - k) (suffix k (o +++ String "." x)) = suffix k o).
  { rewrite suffix_shift by exact K. rewrite <- suffix_length. apply prefix_app. }
  rewrite E. destruct (has_other "." (suffix k o)) eqn:O; [|now rewrite andb_false_r]. exfalso. apply N.
  destruct (has_other_split _ _ O) as (a & b & r & S1 & Hb). exists (prefix k o +++ a), b, r.
  rewrite S1 in W. destruct (rfind_none_app _ _ _ W) as (_ & W2). split; [|split; [exact Hb|]].
  - rewrite append_assoc, <- S1. symmetry. apply prefix_suffix.
  - unfold without in W2. cbn [rfind] in W2. destruct (rfind "/" r) eqn:R1; [discriminate|]. split; [|exact R1].
    intros ->. discriminate.
Qed.

(** * The whole body, from its parts *)
Section Body.
Variable I : world -> Prop.
Variables (t : texts) (c : command) (f lf out : string) (silent d : bool) (k : calculator) (a : result bool).
Variable shows : forall x m, keeps I (show x m).
Variable writes : forall m, keeps I (log (Some lf) m).
Variable saves : forall j, keeps I (save lf out silent d j a).
Lemma body_both x m : x <> Question -> keeps I (show x m ;; log (Some lf) m).
Proof. intros _. apply keeps_bind; [apply shows|intros _; apply writes]. Qed.
Lemma body_only : silent = true -> forall m, keeps I (log (Some lf) m). Proof. intros _. exact writes. Qed.
Lemma keeps_body : keeps I (body t c f lf out silent d k a).
Proof.
  pose proof body_both as K. pose proof body_only as O.
  unfold body. apply keeps_bind; [apply keeps_look|]. intros n.
  assert (E : forall m, keeps I (echo_error (error_banner t) (Some lf) false ;; echo_error m (Some lf) false)).
  { intros m. apply keeps_bind; [apply keeps_error; exact K|intros _; apply keeps_error; exact K]. }
  destruct n; [apply E| |apply E].
  apply keeps_bind; [apply keeps_echo; assumption|intros _].
  apply keeps_bind; [apply keeps_call; assumption|intros _].
  apply keeps_bind; [apply keeps_look|intros m].
  apply keeps_bind; [apply keeps_call; assumption|intros r]. destruct r as [e|j].
  - apply keeps_bind; [unfold echo_error, log; apply keeps_bind; [apply shows|intros _; apply keeps_ret]|].
    intros _. apply keeps_error. exact K.
  - unfold conclude. apply keeps_bind; [apply keeps_call; assumption|intros _]. apply keeps_bind; [apply keeps_call; assumption|]. intros e. destruct e.
    + apply E.
    + apply keeps_bind; [destruct (reports c); [apply keeps_call; assumption|apply keeps_ret]|intros _].
      apply keeps_bind; [apply saves|intros _; apply keeps_closing; assumption].
Qed.
End Body.

(** * Programs which end well *)
Definition total {A} (I : world -> Prop) (m : M A) (a : A) : Prop := forall w, I w -> exists v, m w = (Ok a, v) /\ I v.
Lemma total_ret {A} I (a : A) : total I (ret a) a. Proof. intros w H. now exists w. Qed.
Lemma total_bind {A B} I (m : M A) (k : A -> M B) a b : total I m a -> total I (k a) b -> total I (bind m k) b.
Proof. intros H K w Hw. destruct (H w Hw) as (v & E & Hv). rewrite (bind_ok m k w a v E). now apply K. Qed.

(** The log is a file, two other paths hold given things, and given questions
    have been asked. *)
Record steady (lf p q : string) (x y : node) (asked : list (kind * string)) (w : world) : Prop := {
  st_log : exists s, fs w lf = File s;
  st_p : fs w p = x;
  st_q : fs w q = y;
  st_asked : filter is_question (screen w) = asked }.
Section Steady.
Variables (lf p q : string) (x y : node) (asked : list (kind * string)) (silent d : bool).
Variables (np : p <> lf) (nq : q <> lf).
Let I := steady lf p q x y asked.
Lemma total_log m : total I (log (Some lf) m) tt.
Proof.
  intros w [(s & L) P Q A]. unfold log, append. rewrite L. eexists. split; [reflexivity|].
  constructor; cbn [fs screen]; rewrite ?update_same, ?update_other by assumption; eauto.
Qed.
Lemma total_show k m : k <> Question -> total I (show k m) tt.
Proof.
  intros N w [L P Q A]. eexists. split; [reflexivity|]. constructor; cbn [fs screen]; auto.
  rewrite filter_app, A. destruct k; try contradiction; cbn; apply app_nil_r.
Qed.
Lemma total_echo m b : total I (echo m (Some lf) b) tt.
Proof. eapply total_bind; [|apply total_log]. destruct b; [apply total_ret|apply total_show; discriminate]. Qed.
Lemma total_highlight m b : total I (echo_highlight m (Some lf) b) tt.
Proof. eapply total_bind; [|apply total_log]. destruct b; [apply total_ret|apply total_show; discriminate]. Qed.
Lemma total_performs l : total I (performs lf silent d l) tt.
Proof.
  induction l as [|e l IH]; cbn [performs]; [apply total_ret|]. eapply total_bind; [|exact IH].
  destruct e; cbn [perform]; [apply total_echo|apply total_echo| |destruct d; [apply total_echo|apply total_ret]].
  eapply total_bind; [apply total_show; discriminate|apply total_log].
Qed.
Lemma total_call {A} (m : method A) a : snd m = Ok a -> total I (call lf silent d m) a.
Proof. intros E. eapply total_bind; [apply total_performs|]. rewrite E. apply total_ret. Qed.
Lemma total_closing t : total I (closing t lf silent) tt.
Proof. unfold closing. do 4 (eapply total_bind; [apply total_highlight|]). apply total_highlight. Qed.
End Steady.
