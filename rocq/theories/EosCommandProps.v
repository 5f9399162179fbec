(** C97: quantas eosfit, from the text of the input file and the answers of the
    user to the log. *)
From Coq Require Import Reals Lra Lia String Ascii List Bool Arith ZArith.
From Verif Require Import Py DecimalModel DecimalProofs FormatModel FormatProofs TableModel ReportModel ReportSpec ReportProofs QhaReportProps
  EosReaderModel EosReaderProps EosReportModel EosReportProps EosCommandModel.
From Verif Require CliModel CliProofs CliProps RunLogProps CitationsModel HaCommandModel EosFitModel EosFitProps.
Import ListNotations.
Open Scope string_scope.
Open Scope list_scope.
Open Scope nat_scope.

(** ** Specification *)
(** What the report of a fit says: the data (a key of the input), the
    formulation (a key of the menu), its order, which parameters were kept, and
    which of pressure and data are weighted, with the results of scipy. *)
Record tells (d : data) (q menu : string) (order : nat) (kept : list nat) (wp wv : bool) (r : output) (block : list string) : Prop := {
  tells_data : contains block ["#" +++ center 78 ("EOS results for " +++ quantity_name q +++ " fitting") +++ "#"];
  tells_eos : exists l1 l2, contains block [l1; l2] /\
    says l1 (map Word (["EOS"; "formulation:"] ++ match menu with "1" => ["Murnaghan"] | "2" => ["Birch-Murnaghan"] | "3" => ["Natural"; "Strain"] | "4" => ["Vinet"] | _ => ["Tait"] end)) /\
    says l2 [Word "EOS"; Word "order:"; Whole (Z.of_nat order)];
  tells_weights : exists l1 l2, contains block [l1; l2] /\
    says l1 (map Word (if wp then ["Results"; "weighted"; "for"; "pressure"] else ["Results"; "not"; "weighted"; "for"; "pressure"])) /\
    says l2 (map Word (if wv then ["Results"; "weighted"; "for"; quantity_name q] else ["Results"; "not"; "weighted"; "for"; "for"; quantity_name q]));
  tells_parameters : exists ls, contains block ("Fitting parameters:" :: ls) /\
    Forall2 (fun i l => says l ([Word (nth i (symbols q) ""); Word "="; told 5 (beta r i); Word "+/-"; told 5 (sd_beta r i)] ++
      (if nth i kept 1 =? 0 then [Word "(FIXED)"] else []) ++ (if implied order i then [Word "[IMPLIED]"] else []))) (seq 0 4) ls;
  tells_errors : (exists ls, contains block ("Covariance matrix:" :: ls) /\
      Forall2 (fun i l => says l (map (fun j => Digits 5 (cov_beta r i j)) (seq 0 4))) (seq 0 4) ls) /\
    exists l, contains block [l] /\ says l [Word "Residual"; Word "variance:"; told 4 (res_var r)];
  tells_points : exists vs ps head bar rows, cols d q = Some vs /\ cols d "p" = Some ps /\ contains block (head :: bar :: rows) /\
    says head (value_names q "A" ++ [Word "Pressure"; Word "(GPa)"; Word "P_obs"; Word "(GPa)"; Word "eps_P"]) /\
    Forall2 (fun i l => says l [datum 5 (nth i vs NaN); told 5 (delta r i); datum 5 (nth i ps NaN); told 5 (y r i); told 5 (eps r i)]) (seq 0 (List.length vs)) rows }.
(** Blocks of lines which stand in this order, with empty lines between them. *)
Inductive minutes : list (list string -> Prop) -> list string -> Prop :=
| minutes_end : minutes [] []
| minutes_blank ts ls : minutes ts ls -> minutes ts ("" :: ls)
| minutes_block (t : list string -> Prop) ts block ls : t block -> minutes ts ls -> minutes (t :: ts) (block ++ ls).

(** A fit as the user asks for it. *)
Record wish := { w_data : string; w_menu : string; w_order : nat;
  w_start : option (list R);       (* the four start values typed, if any *)
  w_keep : option (list bool);     (* which of the four parameters are kept *)
  w_weigh_p : bool; w_weigh_v : bool }.
(** Answers to a yes-or-no question. *)
Definition yes_or_no (b : bool) (s : string) : Prop := In (strip (lower s)) (if b then ["y"; "yes"] else ["n"; "no"]).
(** The orders each formulation of the menu is offered with. *)
Definition menu_orders : list (string * nat) :=
  [("1", 3); ("2", 2); ("2", 3); ("2", 4); ("3", 2); ("3", 3); ("3", 4); ("4", 2); ("4", 3); ("5", 2); ("5", 3); ("5", 4)].
Definition present (d : data) (q : string) : Prop := exists xs, cols d q = Some xs.
(** The file holds what is asked for. *)
Record grantable (d : data) (w : wish) : Prop := {
  g_data : In (w_data w) ["v"; "a"; "b"; "c"] /\ present d (w_data w);
  g_menu : In (w_menu w, w_order w) menu_orders;
  g_start : forall xs, w_start w = Some xs -> List.length xs = 4;
  g_keep : forall bs, w_keep w = Some bs -> List.length bs = 4;
  g_weights : (w_weigh_p w = true -> present d "sigmap") /\ (w_weigh_v w = true -> present d ("sigma" +++ w_data w)) }.

Section Answers.
Variable d : data.
Variable parse_int : string -> option nat.
Variable parse_float : string -> option R.
(** What is typed to ask for a fit, and then to leave the data set. *)
Inductive typed_start : option (list R) -> list string -> Prop :=
| start_as_guessed n : yes_or_no false n -> typed_start None [n]
| start_given yes xs ts : yes_or_no true yes -> Forall2 (fun x t => t <> "" /\ parse_float t = Some x) xs ts -> typed_start (Some xs) (yes :: ts).
Inductive typed_keep : option (list bool) -> list string -> Prop :=
| keep_none n : yes_or_no false n -> typed_keep None [n]
| keep_some yes bs ts : yes_or_no true yes -> Forall2 yes_or_no bs ts -> typed_keep (Some bs) (yes :: ts).
(** Only the weights which the file has are asked for. *)
Inductive typed_weight (key : string) (b : bool) : list string -> Prop :=
| weight_absent : cols d key = None -> typed_weight key b []
| weight_asked t : present d key -> yes_or_no b t -> typed_weight key b [t].
Inductive typed_weights (w : wish) : list string -> Prop :=
| weights_absent : cols d "sigmap" = None -> cols d ("sigma" +++ w_data w) = None -> typed_weights w []
| weights_declined n : present d "sigmap" \/ present d ("sigma" +++ w_data w) -> w_weigh_p w = false -> w_weigh_v w = false -> yes_or_no false n -> typed_weights w [n]
| weights_asked yes a b : present d "sigmap" \/ present d ("sigma" +++ w_data w) -> yes_or_no true yes ->
    typed_weight "sigmap" (w_weigh_p w) a -> typed_weight ("sigma" +++ w_data w) (w_weigh_v w) b -> typed_weights w (yes :: a ++ b).
Inductive typed (w : wish) : list string -> Prop :=
| typed_all o a b c update other ub : o <> "" -> parse_int o = Some (w_order w) -> typed_start (w_start w) a -> typed_keep (w_keep w) b -> typed_weights w c ->
    yes_or_no ub update -> yes_or_no false other -> typed w ([w_data w; w_menu w; o] ++ a ++ b ++ c ++ [update; other]).
(** One wish after the other, and the end. *)
Inductive typed_session : list wish -> list string -> Prop :=
| typed_last w ans n rest : typed w ans -> yes_or_no false n -> typed_session [w] (ans ++ n :: rest)
| typed_next w ans yes ws more : typed w ans -> yes_or_no true yes -> typed_session ws more -> typed_session (w :: ws) (ans ++ yes :: more).
End Answers.

(** What scipy is asked for a wish, [g] being the guess for its data: the start
    values typed or guessed, three times the modulus for an axis. *)
Definition start_of (w : wish) (g : list R) : list R :=
  let s := match w_start w with Some xs => xs | None => g end in
  if String.eqb (w_data w) "v" then s else match s with k :: r => (k * 3)%R :: r | [] => [] end.
Definition kept_of (w : wish) : list nat :=
  match w_keep w with None => [1; 1; 1; 1] | Some bs => map (fun b : bool => if b then 0 else 1) bs end.
Definition asked (w : wish) (g : list R) : EosFitModel.fit_plan string :=
  {| EosFitModel.start := start_of w g; EosFitModel.free := kept_of w;
     EosFitModel.job := if w_weigh_v w then EosFitModel.OrthogonalDistance else EosFitModel.LeastSquares;
     EosFitModel.used_sigmaV := if w_weigh_v w then Some (w_data w) else None;
     EosFitModel.used_sigmaP := if w_weigh_p w then Some "p" else None;
     EosFitModel.plan_order := w_order w; EosFitModel.plan_linear := negb (String.eqb (w_data w) "v") |}.

(** ** The log of an eosfit run (as C93) *)
Section Log.
Variables (t : CliModel.texts) (c : CliModel.command) (f : string) (k : CliModel.calculator) (w : CliModel.world) (s : string).
Notation lf := (CliModel.eosfit_log f).
Hypothesis input : CliModel.fs w f = CliModel.File s.
Hypothesis log_free : CliModel.fs w lf <> CliModel.Dir.
Hypothesis not_input : lf <> f.
Hypothesis constructed : snd (CliModel.new k) = CliModel.Ok tt.
Definition afterwards (r : CliModel.result (string + CliModel.job)) : CliModel.M unit :=
  match r with
  | CliModel.Raises e => CliModel.raise e
  | CliModel.Ok (inl err) => CliModel.bind (CliModel.echo_error (CliModel.error_banner t) None false) (fun _ => CliModel.echo_error err (Some lf) false)
  | CliModel.Ok (inr j) => CliModel.bind (CliModel.call lf false false (CliModel.report_input_data j)) (fun _ =>
      CliModel.bind (CliModel.call lf false false (CliModel.run j)) (fun _ => CliModel.closing t lf false))
  end.
Lemma eosfit_log_is r l : RunLogProps.adds lf (CliModel.fs w) (afterwards (snd (CliModel.read_input k s))) r l ->
  exists v, CliModel.eosfit t c f None k w = (r, v) /\
  CliModel.fs v lf = CliModel.File (RunLogProps.page (["" ; CliModel.title t; CliModel.settings c] ++ RunLogProps.voices false (fst (CliModel.new k)) ++
    RunLogProps.voices false (fst (CliModel.read_input k s)) ++ l)) /\
  forall p, p <> lf -> CliModel.fs v p = CliModel.fs w p.
Proof.
  intros H. set (g := CliModel.fs w).
  set (rest := CliModel.bind (CliModel.look f) (fun m => match m with
      | CliModel.File _ => CliModel.bind (CliModel.echo (CliModel.settings c) (Some lf) false) (fun _ =>
          CliModel.bind (CliModel.call lf false false (CliModel.new k)) (fun _ => CliModel.bind (CliModel.look f) (fun m =>
          CliModel.bind (CliModel.call lf false false (CliModel.read_input k (match m with CliModel.File s => s | _ => "" end))) (fun r => afterwards (CliModel.Ok r)))))
      | _ => CliModel.bind (CliModel.echo_error (CliModel.error_banner t) (Some lf) false) (fun _ => CliModel.echo_error (f +++ " is not a file") (Some lf) false) end)).
  assert (E : CliModel.eosfit t c f None k w = CliModel.bind (CliModel.init_logfile (Some lf)) (fun _ => CliModel.bind (CliModel.echo_highlight (CliModel.title t) (Some lf) false) (fun _ => rest)) w).
  { unfold CliModel.eosfit. unfold CliModel.bind at 1. cbn [CliModel.look]. rewrite input. unfold rest, afterwards. reflexivity. }
  assert (I : exists u, CliModel.init_logfile (Some lf) w = (CliModel.Ok tt, u) /\ RunLogProps.written lf g [""] u).
  { unfold CliModel.init_logfile, CliModel.write. destruct (CliModel.fs w lf) eqn:X; [| |contradiction]; eexists; (split; [reflexivity|]); unfold RunLogProps.written; cbn [CliModel.fs]; reflexivity. }
  destruct I as (u & EI & U).
  assert (X : RunLogProps.adds lf g (CliModel.bind (CliModel.echo_highlight (CliModel.title t) (Some lf) false) (fun _ => rest)) r
    ([CliModel.title t] ++ [] ++ [CliModel.settings c] ++ RunLogProps.voices false (fst (CliModel.new k)) ++ [] ++ RunLogProps.voices false (fst (CliModel.read_input k s)) ++ l)).
  { apply (RunLogProps.adds_bind _ _ _ _ tt); [apply RunLogProps.adds_highlight|]. unfold rest.
    apply (RunLogProps.adds_bind _ _ _ _ (CliModel.File s)); [apply RunLogProps.adds_look; auto|]. cbv iota.
    apply (RunLogProps.adds_bind _ _ _ _ tt); [apply RunLogProps.adds_echo|].
    apply (RunLogProps.adds_bind _ _ _ _ tt); [rewrite <- constructed; apply RunLogProps.adds_call|].
    apply (RunLogProps.adds_bind _ _ _ _ (CliModel.File s)); [apply RunLogProps.adds_look; auto|]. cbv iota.
    pose proof (RunLogProps.adds_call lf g false false (CliModel.read_input k s)) as C. destruct (snd (CliModel.read_input k s)) as [z|e].
    - apply (RunLogProps.adds_bind _ _ _ _ z); [exact C|exact H].
    - cbn [afterwards] in H. intros l0 v0 W0. destruct (RunLogProps.adds_fail lf g _ (fun r => afterwards (CliModel.Ok r)) _ _ C l0 v0 W0) as (v' & E' & W').
      exists v'. destruct (H _ _ W') as (v2 & E2 & W2). unfold CliModel.raise in E2. injection E2 as <- <-. split; [exact E'|]. now rewrite app_assoc. }
  destruct (X _ _ U) as (v & EV & W). exists v. rewrite E. split; [unfold CliModel.bind at 1; now rewrite EI|]. unfold RunLogProps.written in W. rewrite W.
  split; [rewrite CliProofs.update_same; reflexivity|]. intros p N. now apply CliProofs.update_other.
Qed.
End Log.

(** ** The blocks of lines *)
Lemma minutes_app a l b m : minutes a l -> minutes b m -> minutes (a ++ b) (l ++ m).
Proof. intros H K. induction H as [|ts ls H IH|t ts block ls T H IH]; cbn [app]; [exact K|now constructor|]. rewrite <- app_assoc. now constructor. Qed.
Lemma minutes_one (t : list string -> Prop) l : t l -> minutes [t] l.
Proof. intros H. rewrite <- (app_nil_r l). constructor; [exact H|constructor]. Qed.
Lemma minutes_blanks l : (forall x, In x l -> x = "") -> minutes [] l.
Proof. induction l as [|x l IH]; intros H; [constructor|]. rewrite (H x (or_introl eq_refl)). constructor. apply IH. intros z I. apply H. now right. Qed.

(** ** What an accepted file holds *)
Definition sized (d : data) : Prop :=
  (exists n, forall q xs, cols d q = Some xs -> List.length xs = n /\ has_key q (fmt d) = true) /\
  forall q, cols d q <> None -> cols d "p" <> None.
Lemma has_set k n f q : has_key q (dict_set k n f) = (String.eqb q k || has_key q f)%bool.
Proof.
  induction f as [|(k', n') f IH]; cbn [dict_set]; [reflexivity|]. destruct (String.eqb_spec k k') as [<-|N]; cbn [has_key existsb fst].
  - fold (has_key q f). now destruct (String.eqb q k).
  - fold (has_key q f) (has_key q (dict_set k n f)). rewrite IH. now destruct (String.eqb q k), (String.eqb q k').
Qed.
Lemma has_add toks : forall i f q, has_key q f = true -> has_key q (add_tokens i toks f) = true.
Proof. induction toks as [|t toks IH]; intros i f q H; cbn [add_tokens]; [exact H|]. apply IH. destruct (mem (lower t) known); [|exact H]. rewrite has_set, H. apply orb_true_r. Qed.
Lemma stored rows f : forall k d q, fmt (store_columns k f rows d) = fmt d /\
  (has_key q f = true -> exists xs, cols (store_columns k f rows d) q = Some xs /\ List.length xs = List.length rows) /\
  (has_key q f = false -> cols (store_columns k f rows d) q = cols d q).
Proof.
  induction f as [|(k', n') f IH]; intros k d q; cbn [store_columns]; [split; [reflexivity|]; split; [discriminate|reflexivity]|].
  set (d1 := set_col d k' _). destruct (IH (S k) d1 q) as (A & B & C). split; [now rewrite A|]. cbn [has_key existsb fst]. fold (has_key q f).
  destruct (has_key q f) eqn:E.
  - split; [intros _; now apply B|rewrite orb_true_r; discriminate].
  - rewrite orb_false_r, C by reflexivity. unfold d1, set_col. cbn [cols]. destruct (String.eqb_spec q k') as [->|N]; (split; [|try discriminate; auto]); [|discriminate].
    intros _. eexists. split; [reflexivity|]. now rewrite map_length.
Qed.
Lemma sized_job d d' : sized d -> cols d' = cols d -> (forall q, has_key q (fmt d) = true -> has_key q (fmt d') = true) -> sized d'.
Proof. intros ((n & H) & K) E G. split; [|now rewrite E]. exists n. intros q xs. rewrite E. intros X. destruct (H q xs X). split; [assumption|auto]. Qed.
Lemma job_sized rest : forall d, cols (fst (job_from rest d)) = cols d /\ fmt (fst (job_from rest d)) = fmt d.
Proof.
  induction rest as [|l rest IH]; intros d; cbn [job_from]; [split; reflexivity|]. destruct (chomp l); [apply IH|].
  destruct (strip _); [split; reflexivity|]. destruct (starts_with _ _); [apply IH|]. destruct (String.eqb _ _); split; reflexivity.
Qed.
Lemma format_sized rest : forall d, sized d -> sized (fst (set_data_format rest d)).
Proof.
  induction rest as [|l rest IH]; intros d H; cbn [set_data_format]; [exact H|]. destruct (is_comment l); [now apply IH|].
  apply (sized_job d); [exact H|reflexivity|]. intros q. apply has_add.
Qed.
Lemma data_sized rest d e : sized d -> sized (fst (fst (set_data rest d e))).
Proof.
  intros ((n & H) & K). unfold set_data. destruct (fmt d) as [|x f] eqn:F; [rewrite <- F in *; split; [exists n; exact H|exact K]|]. rewrite <- F in *.
  destruct (has_key "p" (fmt d)) eqn:P; [|split; [exists n; exact H|exact K]].
  destruct (table (fmt d) rest) as [rows|m]; [|split; [exists n; exact H|exact K]]. cbn [fst]. split.
  - exists (List.length rows). intros q xs X. destruct (stored rows (fmt d) 0 d q) as (A & B & C). rewrite A. destruct (has_key q (fmt d)) eqn:E.
    + destruct (B eq_refl) as (xs' & X' & L). rewrite X in X'. injection X' as <-. auto.
    + rewrite C in X by reflexivity. destruct (H q xs X). congruence.
  - intros q _. destruct (stored rows (fmt d) 0 d "p") as (_ & B & _). destruct (B P) as (xs & -> & _). discriminate.
Qed.
Lemma load_sized lines : forall d e, sized d -> sized (fst (fst (load_from lines d e))).
Proof.
  induction lines as [|l lines IH]; intros d e H; cbn [load_from]; [exact H|]. destruct (is_comment l); [now apply IH|].
  set (x := if String.eqb (keyword l) "job" then _ else _).
  assert (S : sized (fst (fst x))).
  { unfold x. destruct (String.eqb (keyword l) "job"); [|destruct (String.eqb (keyword l) "format"); [|destruct (String.eqb (keyword l) "data"); [|exact H]]].
    - unfold set_job_name. destruct (String.eqb (job d) "Unknown"); [|exact H]. destruct (job_sized lines d) as (A & B). destruct (job_from lines d) as (d', s'). cbn [fst] in *.
      apply (sized_job d); [exact H|exact A|now rewrite B].
    - pose proof (format_sized lines d H) as F. now destruct (set_data_format lines d).
    - apply data_sized, H. }
  destruct x as ((d', e'), s'). cbn [fst] in S. destruct s'; [exact S|]. now apply IH.
Qed.
Definition accepted (text : string) (d : data) : Prop :=
  load (readlines text) class_data = (d, Completed) /\ exists q, In q ["v"; "a"; "b"; "c"] /\ present d q.
Lemma accepted_complete text d : accepted text d -> exists ps, cols d "p" = Some ps /\ forall q xs, cols d q = Some xs -> List.length xs = List.length ps.
Proof.
  intros (L & q & _ & xs & X). assert (Z : sized d).
  { pose proof (load_sized (readlines text) class_data None) as H. unfold load in L. destruct (load_from (readlines text) class_data None) as ((d', e), s).
    injection L as -> _. apply H. split; [exists 0; intros ? ? Y; discriminate Y|intros ? Y; now elim Y]. }
  destruct Z as ((n & H) & K). destruct (cols d "p") as [ps|] eqn:P; [|exfalso; apply (K q); congruence].
  exists ps. split; [reflexivity|]. intros q' xs' X'. destruct (H q' xs' X'), (H "p" ps P). congruence.
Qed.

(** ** The report of a fit *)
Section Session.
Variable guess : list fl -> list fl -> CliModel.result (list R).
Variable parse_int : string -> option nat.
Variable parse_float : string -> option R.
Variable round5 : R -> R.
Variable odr : list fl -> list fl -> option (list fl) -> option (list fl) -> string -> EosFitModel.fit_plan string -> CliModel.result output.
Variable odd : shown -> R.
Section Data.
Variable d : data.
Variable ps : list fl.
Hypothesis pressures : cols d "p" = Some ps.
Notation turn := (EosCommandModel.turn guess parse_int parse_float round5 odr odd d).
Notation conversation := (EosCommandModel.conversation guess parse_int parse_float round5 odr odd d).
Notation report := (EosCommandModel.report odr d).
Notation reports := (EosCommandModel.reports odr d).
Notation fitted := (EosCommandModel.fitted odr d).
Definition told_fit (q menu : string) (p : EosFitModel.fit_plan string) (r : output) : list string -> Prop :=
  tells d q menu (EosFitModel.plan_order p) (EosFitModel.free p) (EosFitModel.has_len (EosFitModel.used_sigmaP p)) (EosFitModel.has_len (EosFitModel.used_sigmaV p)) r.

Lemma measured_at q vs i : cols d q = Some vs -> told 5 (value_at d q i) = datum 5 (nth i vs NaN).
Proof. intros E. unfold value_at, EosCommandModel.column. rewrite E. apply told_measured. Qed.
Lemma report_tells q menu p r : In q ["v"; "a"; "b"; "c"] -> present d q -> In (menu, EosFitModel.plan_order p) menu_orders -> fitted q menu p = CliModel.Ok r ->
  exists block, report (EosFitModel.Fitted q menu p) = (block, CliModel.Ok tt) /\ told_fit q menu p r block.
Proof.
  intros Q (vs & V) M E. unfold EosCommandModel.report. rewrite E.
  assert (O : 2 <= EosFitModel.plan_order p <= 4 /\ In menu ["1"; "2"; "3"; "4"; "5"]).
  { clear - M. unfold menu_orders in M. cbn [In] in M. repeat (destruct M as [M|M]; [injection M as <- <-; cbn; split; [lia|tauto]|]). contradiction. }
  destruct O as (O & N). assert (LV : List.length (EosCommandModel.column d q) = List.length vs) by (unfold EosCommandModel.column; now rewrite V).
  set (wp := EosFitModel.has_len _). set (wv := EosFitModel.has_len (EosFitModel.used_sigmaV p)).
  pose proof (C89_fit "A" r (List.length (EosCommandModel.column d q)) (value_at d q) (value_at d "p") q menu (EosFitModel.plan_order p) wp wv (EosFitModel.free p) Q O N) as (b & Eb & F1 & F2 & F3).
  pose proof (C89_parameters "A" r (List.length (EosCommandModel.column d q)) (value_at d q) (value_at d "p") q menu (EosFitModel.plan_order p) wp wv (EosFitModel.free p) Q O) as (b1 & Eb1 & P1).
  pose proof (C89_errors "A" r (List.length (EosCommandModel.column d q)) (value_at d q) (value_at d "p") q menu (EosFitModel.plan_order p) wp wv (EosFitModel.free p) O) as (b2 & Eb2 & P2 & P3 & _).
  pose proof (C89_calculated "A" r (List.length (EosCommandModel.column d q)) (value_at d q) (value_at d "p") q menu (EosFitModel.plan_order p) wp wv (EosFitModel.free p) Q O eq_refl) as (b3 & Eb3 & P4).
  rewrite Eb in Eb1, Eb2, Eb3. injection Eb1 as <-. injection Eb2 as <-. injection Eb3 as <-. rewrite Eb. exists b. split; [reflexivity|].
  constructor; [exact F1|exact F2|exact F3|exact P1|split; [exact P2|exact P3]|].
  destruct P4 as (head & bar & rows & C & H & F). exists vs, ps, head, bar, rows. split; [exact V|]. split; [exact pressures|]. split; [exact C|]. split; [exact H|].
  rewrite LV in F. clear - F V pressures. induction F as [|i l is ls S F IH]; constructor; [|exact IH]. rewrite <- (measured_at q vs i V), <- (measured_at "p" ps i pressures). exact S.
Qed.

(** ** One answer after the other *)
(** From [st], the answers lead to [st'] and the lines are printed. *)
Definition goes (st : EosFitModel.point) (ans : list string) (ls : list string) (st' : EosFitModel.point) : Prop :=
  forall rest, conversation st (ans ++ rest) = (ls ++ fst (conversation st' rest), snd (conversation st' rest)).
Lemma goes_none st : goes st [] [] st.
Proof. intros rest. cbn [app]. now destruct (conversation st rest). Qed.
Lemma goes_app st a l st' b m st'' : goes st a l st' -> goes st' b m st'' -> goes st (a ++ b) (l ++ m) st''.
Proof. intros H K rest. rewrite <- app_assoc, H, K. cbn [fst snd]. now rewrite app_assoc. Qed.
Lemma goes_turn st a ls st' : st <> EosFitModel.Done -> turn st a = (ls, CliModel.Ok st') -> goes st [a] ls st'.
Proof.
  intros N E rest. cbn [app EosCommandModel.conversation]. assert (D : is_done st = false) by (destruct st; (reflexivity || contradiction)). rewrite D, E.
  now destruct (conversation st' rest).
Qed.
Notation sigma q := (EosCommandModel.available d (uncertainty q)).
Notation estep := (EosFitModel.step (available d) (fun q => sigma q) (guessed guess d) parse_int parse_float round5 (betas odr odd d)).
Lemma turn_plain st a st' : estep st a = (st', []) -> guess_fails guess d st st' = None -> turn st a = (between st a st', CliModel.Ok st').
Proof. intros E G. unfold EosCommandModel.turn, step. rewrite E, G. cbn [EosCommandModel.reports]. now rewrite app_nil_r. Qed.
Lemma turn_fit st a st' e block : estep st a = (st', [e]) -> guess_fails guess d st st' = None -> report e = (block, CliModel.Ok tt) ->
  turn st a = (between st a st' ++ block, CliModel.Ok st').
Proof. intros E G B. unfold EosCommandModel.turn, step. rewrite E, G. cbn [EosCommandModel.reports]. rewrite B. now rewrite app_nil_r. Qed.
Lemma answered b dflt s : yes_or_no b s -> EosFitModel.confirm_answer dflt s = Some b.
Proof. unfold yes_or_no, EosFitModel.confirm_answer. intros H. destruct b; destruct H as [<-|[<-|[]]]; reflexivity. Qed.
Lemma available_is q : EosCommandModel.available d q = true <-> present d q.
Proof. unfold EosCommandModel.available, present. destruct (cols d q); [split; eauto|split; [discriminate|intros (xs & X); discriminate X]]. Qed.
Lemma unavailable_is q : EosCommandModel.available d q = false <-> cols d q = None.
Proof. unfold EosCommandModel.available. destruct (cols d q); split; congruence. Qed.
Lemma order_known menu o : In (menu, o) menu_orders -> exists os, EosFitModel.EOS_ORDERS menu = Some os /\ existsb (Nat.eqb o) os = true /\ menu <> "".
Proof. unfold menu_orders. cbn [In]. intros M. repeat (destruct M as [M|M]; [injection M as <- <-; eexists; split; [reflexivity|]; split; [reflexivity|discriminate]|]). contradiction. Qed.

Section Wish.
Variables (w : wish) (g : list R) (r : output) (df : EosFitModel.defaults).
Hypothesis GR : grantable d w.
Hypothesis GU : guess (EosCommandModel.column d (w_data w)) ps = CliModel.Ok g.
Hypothesis G4 : List.length g = 4.
Hypothesis FT : fitted (w_data w) (w_menu w) (asked w g) = CliModel.Ok r.
Definition values_of : list R := match w_start w with Some xs => xs | None => g end.
Definition chosen (vs : list R) : EosFitModel.sel := {| EosFitModel.s_data := w_data w; EosFitModel.s_guess := vs; EosFitModel.s_eos := w_menu w; EosFitModel.s_order := w_order w |}.
Lemma choose_data : goes (EosFitModel.AtData df) [w_data w] [""] (EosFitModel.AtEos {| EosFitModel.c_data := w_data w; EosFitModel.c_guess := None; EosFitModel.c_defaults := df |}).
Proof.
  apply goes_turn; [discriminate|]. destruct (g_data d w GR) as (I & Pr). apply available_is in Pr.
  rewrite (turn_plain _ _ (EosFitModel.AtEos {| EosFitModel.c_data := w_data w; EosFitModel.c_guess := None; EosFitModel.c_defaults := df |})); [reflexivity| |reflexivity].
  cbn [EosFitModel.step]. rewrite Pr. cbn [In] in I. destruct I as [<-|[<-|[<-|[<-|[]]]]]; reflexivity.
Qed.
Lemma choose_eos c o : o <> "" -> parse_int o = Some (w_order w) -> EosFitModel.c_data c = w_data w -> EosFitModel.c_guess c = None ->
  goes (EosFitModel.AtEos c) [w_menu w; o] [] (EosFitModel.AtModify (chosen g)).
Proof.
  intros No Po Cd Cg. destruct (order_known _ _ (g_menu d w GR)) as (os & Eo & Io & Nm).
  apply (goes_app _ [w_menu w] [] (EosFitModel.AtOrder c (w_menu w)) [o] []).
  - apply goes_turn; [discriminate|]. rewrite (turn_plain _ _ (EosFitModel.AtOrder c (w_menu w))); [reflexivity| |reflexivity].
    cbn [EosFitModel.step]. destruct (String.eqb_spec (w_menu w) ""); [contradiction|]. now rewrite Eo.
  - apply goes_turn; [discriminate|].
    assert (CP : EosCommandModel.column d "p" = ps) by (unfold EosCommandModel.column; now rewrite pressures).
    rewrite (turn_plain _ _ (EosFitModel.AtModify (chosen g))); [reflexivity| |].
    + cbn [EosFitModel.step]. rewrite Eo. destruct (String.eqb_spec o ""); [contradiction|]. rewrite Po, Io, Cg, Cd.
      unfold guessed. rewrite CP, GU. reflexivity.
    + cbn [guess_fails]. rewrite Cg, Cd, CP, GU. reflexivity.
Qed.
Lemma modify a : typed_start parse_float (w_start w) a -> goes (EosFitModel.AtModify (chosen g)) a [] (EosFitModel.AtFix (chosen values_of)).
Proof.
  unfold values_of. intros H. pose proof (g_start d w GR) as L. destruct H as [n Hn|yes xs ts Hy F].
  - apply goes_turn; [discriminate|]. rewrite (turn_plain _ _ (EosFitModel.AtFix (chosen g))); [reflexivity| |reflexivity].
    cbn [EosFitModel.step]. unfold EosFitModel.yes_no. now rewrite (answered _ _ _ Hn).
  - specialize (L xs eq_refl). destruct g as [|g0 [|g1 [|g2 [|g3 [|]]]]]; try discriminate G4. destruct xs as [|x0 [|x1 [|x2 [|x3 [|]]]]]; try discriminate L.
    inversion F as [|? t0 ? ts0 (N0 & P0) F0]; subst. inversion F0 as [|? t1 ? ts1 (N1 & P1) F1]; subst. inversion F1 as [|? t2 ? ts2 (N2 & P2) F2]; subst.
    inversion F2 as [|? t3 ? ts3 (N3 & P3) F3]; subst. inversion F3; subst. clear F F0 F1 F2 F3.
    assert (E : forall t, t <> "" -> (t =? "")%string = false) by (intros t N; now apply String.eqb_neq).
    assert (PAR : forall l i t x, t <> "" -> parse_float t = Some x -> estep (EosFitModel.AtParam (chosen l) i) t = (EosFitModel.next_param (chosen (EosFitModel.set_nth l i x)) (S i), [])).
    { intros l i t x N P. cbn [EosFitModel.step]. rewrite (E t N), P. reflexivity. }
    assert (STEP : forall l i t x st', t <> "" -> parse_float t = Some x -> EosFitModel.next_param (chosen (EosFitModel.set_nth l i x)) (S i) = st' -> goes (EosFitModel.AtParam (chosen l) i) [t] [] st').
    { intros l i t x st' N P <-. apply goes_turn; [discriminate|]. rewrite (turn_plain _ _ _ (PAR l i t x N P)); [reflexivity|]. reflexivity. }
    apply (goes_app _ [yes] [] (EosFitModel.AtParam (chosen [g0; g1; g2; g3]) 0) [t0; t1; t2; t3] []).
    { apply goes_turn; [discriminate|]. rewrite (turn_plain _ _ (EosFitModel.AtParam (chosen [g0; g1; g2; g3]) 0)); [reflexivity| |reflexivity].
      cbn [EosFitModel.step]. unfold EosFitModel.yes_no. now rewrite (answered _ _ _ Hy). }
    apply (goes_app _ [t0] [] (EosFitModel.AtParam (chosen [x0; g1; g2; g3]) 1) [t1; t2; t3] []); [now apply (STEP _ _ _ x0)|].
    apply (goes_app _ [t1] [] (EosFitModel.AtParam (chosen [x0; x1; g2; g3]) 2) [t2; t3] []); [now apply (STEP _ _ _ x1)|].
    apply (goes_app _ [t2] [] (EosFitModel.AtParam (chosen [x0; x1; x2; g3]) 3) [t3] []); [now apply (STEP _ _ _ x2)|].
    now apply (STEP _ _ _ x3).
Qed.
Definition sent (fx : list nat) (wp wv : option string) : EosFitModel.fit_plan string :=
  fst (EosFitModel.fit (guessed guess d (w_data w)) (Some values_of) wv wp (w_order w) (EosFitModel.linearized (w_data w)) (Some fx)).
Lemma sent_asked : sent (kept_of w) (if w_weigh_p w then Some "p" else None) (if w_weigh_v w then Some (w_data w) else None) = asked w g.
Proof.
  unfold sent, EosFitModel.fit, asked, start_of, EosFitModel.linearized, EosFitModel.triple_first, EosFitModel.free_parameters, EosFitModel.check. fold values_of. cbn [fst].
  destruct (w_weigh_v w), (String.eqb (w_data w) "v"), values_of; reflexivity.
Qed.
(** After the fit. *)
Definition after : EosFitModel.point := fst (EosFitModel.do_fit (guessed guess d) (betas odr odd d) (chosen values_of) (kept_of w)
  (if w_weigh_p w then Some "p" else None) (if w_weigh_v w then Some (w_data w) else None)).
Lemma fits : exists block, told_fit (w_data w) (w_menu w) (asked w g) r block /\
  forall st a, estep st a = EosFitModel.do_fit (guessed guess d) (betas odr odd d) (chosen values_of) (kept_of w) (if w_weigh_p w then Some "p" else None) (if w_weigh_v w then Some (w_data w) else None) ->
    st <> EosFitModel.Done -> (forall c k, st <> EosFitModel.AtOrder c k) -> goes st [a] (between st a after ++ block) after.
Proof.
  destruct (g_data d w GR) as (I & Pr). destruct (report_tells (w_data w) (w_menu w) (asked w g) r I Pr (g_menu d w GR) FT) as (block & E & T).
  exists block. split; [exact T|]. intros st a Es N NO. apply goes_turn; [exact N|]. apply (turn_fit _ _ _ (EosFitModel.Fitted (w_data w) (w_menu w) (asked w g))); [| |exact E].
  - rewrite Es. rewrite <- sent_asked. reflexivity.
  - destruct st; (reflexivity || elim (NO c key); reflexivity).
Qed.
Notation asks_weights fx := (EosFitModel.ask_weights (fun q => sigma q) (guessed guess d) (betas odr odd d) (chosen values_of) fx).
Lemma weights_and_fit : exists block, told_fit (w_data w) (w_menu w) (asked w g) r block /\
  forall st a c, estep st a = asks_weights (kept_of w) -> typed_weights d w c -> ((exists s, st = EosFitModel.AtFix s) \/ exists s acc, st = EosFitModel.AtFixOne s acc) ->
    goes st (a :: c) ("" :: block) after.
Proof.
  destruct fits as (block & T & FIT). exists block. split; [exact T|]. intros st a c Es H ST.
  assert (N : st <> EosFitModel.Done /\ forall x k, st <> EosFitModel.AtOrder x k) by (destruct ST as [(s & ->)|(s & acc & ->)]; split; congruence). destruct N as (N & NO).
  assert (GAP : forall p, (exists s fx, p = EosFitModel.AtWeights s fx) \/ (exists s b, p = EosFitModel.AtUpdate s b) -> between st a p = [""]).
  { intros p [(s & fx & ->)|(s & b & ->)]; destruct ST as [(s' & ->)|(s' & acc & ->)]; reflexivity. }
  assert (GAP' : between st a after = [""]) by (apply GAP; right; unfold after; eexists _, _; reflexivity).
  destruct (g_weights d w GR) as (WP & WV).
  assert (OFF : cols d "sigmap" = None -> w_weigh_p w = false) by (intros E; destruct (w_weigh_p w); [destruct (WP eq_refl); congruence|reflexivity]).
  assert (OFFV : cols d ("sigma" +++ w_data w) = None -> w_weigh_v w = false) by (intros E; destruct (w_weigh_v w); [destruct (WV eq_refl); congruence|reflexivity]).
  assert (FIRST : present d "sigmap" \/ present d ("sigma" +++ w_data w) -> goes st [a] [""] (EosFitModel.AtWeights (chosen values_of) (kept_of w))).
  { intros Pr. apply goes_turn; [exact N|]. rewrite (turn_plain _ _ (EosFitModel.AtWeights (chosen values_of) (kept_of w))); [|rewrite Es|].
    - f_equal. apply GAP. left. eauto.
    - unfold EosFitModel.ask_weights. cbn [EosFitModel.s_data chosen]. change (uncertainty "p") with "sigmap". unfold uncertainty.
      destruct Pr as [Pr|Pr]; apply available_is in Pr; rewrite Pr; [reflexivity|]. now rewrite orb_true_r.
    - destruct st; (reflexivity || (elim (NO c0 key); reflexivity)). }
  destruct H as [A B|n Pr Fp Fv Hn|yes a' b Pr Hy Ta Tb].
  - rewrite <- (app_nil_l block). change ("" :: [] ++ block) with ([""] ++ block). rewrite <- GAP'. apply FIT; [|exact N|exact NO]. rewrite Es. rewrite (OFF A), (OFFV B).
    unfold EosFitModel.ask_weights. cbn [EosFitModel.s_data chosen]. change (uncertainty "p") with "sigmap". unfold uncertainty. apply unavailable_is in A, B. now rewrite A, B.
  - apply (goes_app _ [a] [""] (EosFitModel.AtWeights (chosen values_of) (kept_of w)) [n] block); [exact (FIRST Pr)|]. rewrite <- (app_nil_l block).
    apply (FIT (EosFitModel.AtWeights (chosen values_of) (kept_of w)) n); [|discriminate|discriminate]. cbn [EosFitModel.step]. unfold EosFitModel.yes_no. rewrite (answered _ _ _ Hn), Fp, Fv. reflexivity.
  - apply (goes_app _ [a] [""] (EosFitModel.AtWeights (chosen values_of) (kept_of w)) (yes :: a' ++ b) block); [exact (FIRST Pr)|]. clear FIRST Es ST GAP GAP' N NO st a.
    assert (SV : forall st x, st <> EosFitModel.Done -> (forall x k, st <> EosFitModel.AtOrder x k) -> (forall p, between st x p = []) ->
      estep st x = EosFitModel.ask_weight_v (fun q => sigma q) (guessed guess d) (betas odr odd d) (chosen values_of) (kept_of w) (if w_weigh_p w then Some "p" else None) ->
      goes st (x :: b) block after).
    { intros st x N NO BT Es. unfold EosFitModel.ask_weight_v in Es. cbn [EosFitModel.s_data chosen] in Es. change (uncertainty (w_data w)) with ("sigma" +++ w_data w) in Es. destruct Tb as [Z|t Z Ht].
      - replace block with (between st x after ++ block) by now rewrite BT. apply FIT; [|exact N|exact NO]. rewrite Es, (OFFV Z). apply unavailable_is in Z. now rewrite Z.
      - pose proof Z as Z'. apply available_is in Z'. rewrite Z' in Es.
        apply (goes_app _ [x] [] (EosFitModel.AtWeightV (chosen values_of) (kept_of w) (if w_weigh_p w then Some "p" else None)) [t] block).
        + apply goes_turn; [exact N|]. rewrite (turn_plain _ _ _ Es); [now rewrite BT|]. destruct st; (reflexivity || (elim (NO c key); reflexivity)).
        + rewrite <- (app_nil_l block). apply (FIT (EosFitModel.AtWeightV (chosen values_of) (kept_of w) (if w_weigh_p w then Some "p" else None)) t); [|discriminate|discriminate].
          cbn [EosFitModel.step]. unfold EosFitModel.yes_no. now rewrite (answered _ _ _ Ht). }
    destruct Ta as [Z|t Z Ht].
    + cbn [app]. apply SV; [discriminate|discriminate|reflexivity|]. cbn [EosFitModel.step]. unfold EosFitModel.yes_no. rewrite (answered _ _ _ Hy).
      change (uncertainty "p") with "sigmap". rewrite (OFF Z). apply unavailable_is in Z. now rewrite Z.
    + apply (goes_app _ [yes] [] (EosFitModel.AtWeightP (chosen values_of) (kept_of w)) ([t] ++ b) block).
      * apply goes_turn; [discriminate|]. rewrite (turn_plain _ _ (EosFitModel.AtWeightP (chosen values_of) (kept_of w))); [reflexivity| |reflexivity].
        cbn [EosFitModel.step]. unfold EosFitModel.yes_no. rewrite (answered _ _ _ Hy). change (uncertainty "p") with "sigmap". apply available_is in Z. now rewrite Z.
      * cbn [app]. apply SV; [discriminate|discriminate|reflexivity|]. cbn [EosFitModel.step]. unfold EosFitModel.yes_no. now rewrite (answered _ _ _ Ht).
Qed.
Lemma fix_and_fit : exists block, told_fit (w_data w) (w_menu w) (asked w g) r block /\
  forall b c, typed_keep (w_keep w) b -> typed_weights d w c -> goes (EosFitModel.AtFix (chosen values_of)) (b ++ c) ("" :: block) after.
Proof.
  destruct weights_and_fit as (block & T & FIT). exists block. split; [exact T|]. intros b c HK HW. pose proof (g_keep d w GR) as LK. unfold kept_of in FIT.
  destruct HK as [n Hn|yes bs ts Hy F].
  - cbn [app]. apply FIT; [|exact HW|eauto]. cbn [EosFitModel.step]. unfold EosFitModel.yes_no. now rewrite (answered _ _ _ Hn).
  - specialize (LK bs eq_refl). destruct bs as [|b0 [|b1 [|b2 [|b3 [|]]]]]; try discriminate LK. cbn [map] in FIT.
    inversion F as [|? t0 ? ts0 P0 F0]; subst. inversion F0 as [|? t1 ? ts1 P1 F1]; subst. inversion F1 as [|? t2 ? ts2 P2 F2]; subst.
    inversion F2 as [|? t3 ? ts3 P3 F3]; subst. inversion F3; subst. clear F F0 F1 F2 F3.
    set (f := fun x : bool => if x then 0 else 1).
    assert (STEP : forall acc t x, yes_or_no x t -> List.length acc < 3 -> goes (EosFitModel.AtFixOne (chosen values_of) acc) [t] [] (EosFitModel.AtFixOne (chosen values_of) (acc ++ [f x]))).
    { intros acc t x A L. apply goes_turn; [discriminate|]. rewrite (turn_plain _ _ (EosFitModel.AtFixOne (chosen values_of) (acc ++ [f x]))); [reflexivity| |reflexivity].
      cbn [EosFitModel.step]. unfold EosFitModel.yes_no. rewrite (answered _ _ _ A). cbv zeta. fold (f x). assert (X : (List.length (acc ++ [f x]) <? 4) = true) by (rewrite app_length; cbn [List.length]; apply Nat.ltb_lt; lia). now rewrite X. }
    apply (goes_app _ [yes] [] (EosFitModel.AtFixOne (chosen values_of) []) (t0 :: t1 :: t2 :: t3 :: c) ("" :: block)).
    { apply goes_turn; [discriminate|]. rewrite (turn_plain _ _ (EosFitModel.AtFixOne (chosen values_of) [])); [reflexivity| |reflexivity].
      cbn [EosFitModel.step]. unfold EosFitModel.yes_no. now rewrite (answered _ _ _ Hy). }
    apply (goes_app _ [t0] [] (EosFitModel.AtFixOne (chosen values_of) [f b0]) (t1 :: t2 :: t3 :: c) ("" :: block)); [apply (STEP [] t0 b0); [exact P0|cbn; lia]|].
    apply (goes_app _ [t1] [] (EosFitModel.AtFixOne (chosen values_of) [f b0; f b1]) (t2 :: t3 :: c) ("" :: block)); [apply (STEP [f b0] t1 b1); [exact P1|cbn; lia]|].
    apply (goes_app _ [t2] [] (EosFitModel.AtFixOne (chosen values_of) [f b0; f b1; f b2]) (t3 :: c) ("" :: block)); [apply (STEP [f b0; f b1] t2 b2); [exact P2|cbn; lia]|].
    apply FIT; [|exact HW|eauto]. cbn [EosFitModel.step]. unfold EosFitModel.yes_no. now rewrite (answered _ _ _ P3).
Qed.
(** One wish: the report of its fit, then the question for other data. *)
Lemma wish_granted ans : typed d parse_int parse_float w ans -> exists ls df', goes (EosFitModel.AtData df) ans ls (EosFitModel.AtOther df') /\
  minutes [told_fit (w_data w) (w_menu w) (asked w g) r] ls.
Proof.
  intros H. destruct H as [o a b c update other ub No Po Ha Hb Hc Hu Ho]. destruct fix_and_fit as (block & T & FIT). specialize (FIT b c Hb Hc).
  assert (U : exists s' l, goes after [update; other] l (EosFitModel.AtOther (EosFitModel.defaults_of s')) /\ minutes [] l).
  { unfold after, EosFitModel.do_fit. cbn [EosFitModel.fit fst]. set (s := {| EosFitModel.s_data := _ |}). set (bt := betas _ _ _ _ _ _).
    exists (if ub then EosFitModel.with_guess s bt else s), ((if ub then [""] else []) ++ [""]). split.
    - apply (goes_app _ [update] _ (EosFitModel.AtContinue (if ub then EosFitModel.with_guess s bt else s)) [other] [""]).
      + apply goes_turn; [discriminate|]. rewrite (turn_plain _ _ (EosFitModel.AtContinue (if ub then EosFitModel.with_guess s bt else s))).
        * cbn [between]. rewrite (answered _ _ _ Hu). destruct ub; reflexivity.
        * cbn [EosFitModel.step]. unfold EosFitModel.yes_no. now rewrite (answered _ _ _ Hu).
        * destruct ub; reflexivity.
      + apply goes_turn; [discriminate|]. rewrite (turn_plain _ _ (EosFitModel.AtOther (EosFitModel.defaults_of (if ub then EosFitModel.with_guess s bt else s)))); [reflexivity| |reflexivity].
        cbn [EosFitModel.step]. unfold EosFitModel.yes_no. now rewrite (answered _ _ _ Ho).
    - apply minutes_blanks. intros x. destruct ub; cbn; intuition. }
  destruct U as (s' & l & U & ML). exists (["" ] ++ [] ++ [] ++ ("" :: block) ++ l), (EosFitModel.defaults_of s'). split.
  - apply (goes_app _ [w_data w] [""] (EosFitModel.AtEos {| EosFitModel.c_data := w_data w; EosFitModel.c_guess := None; EosFitModel.c_defaults := df |}) (w_menu w :: o :: a ++ b ++ c ++ [update; other])); [exact choose_data|].
    apply (goes_app _ [w_menu w; o] [] (EosFitModel.AtModify (chosen g)) (a ++ b ++ c ++ [update; other])); [now apply choose_eos|].
    apply (goes_app _ a [] (EosFitModel.AtFix (chosen values_of)) (b ++ c ++ [update; other])); [now apply modify|].
    rewrite app_assoc. apply (goes_app _ (b ++ c) ("" :: block) after); [exact FIT|exact U].
  - cbn [app]. constructor. constructor. constructor; [exact T|exact ML].
Qed.
End Wish.

(** A list of wishes, in one session. *)
Lemma wishes_granted ws answers : typed_session d parse_int parse_float ws answers -> forall gs rs df,
  Forall (grantable d) ws -> Forall2 (fun w g => guess (EosCommandModel.column d (w_data w)) ps = CliModel.Ok g /\ List.length g = 4) ws gs ->
  Forall2 (fun '(w, g) r => fitted (w_data w) (w_menu w) (asked w g) = CliModel.Ok r) (combine ws gs) rs ->
  exists ls, conversation (EosFitModel.AtData df) answers = (ls ++ [finished], CliModel.Ok None) /\
    minutes (map (fun '((w, g), r) => told_fit (w_data w) (w_menu w) (asked w g) r) (combine (combine ws gs) rs)) ls.
Proof.
  intros H. induction H as [w ans n rest T Hn|w ans yes ws more T Hy H IH]; intros gs rs df GR GU FT.
  - inversion GR as [|? ? GW _]; subst. inversion GU as [|? g ? gs' (Ug & L4) U0]; subst. inversion U0; subst. cbn [combine] in *.
    inversion FT as [|? r ? rs' Fr F0]; subst. inversion F0; subst. cbn [combine map].
    destruct (wish_granted w g r df GW Ug L4 Fr ans T) as (ls & df' & G & M).
    assert (E : goes (EosFitModel.AtOther df') [n] [finished] EosFitModel.Done).
    { apply goes_turn; [discriminate|]. rewrite (turn_plain _ _ EosFitModel.Done); [reflexivity| |reflexivity]. cbn [EosFitModel.step]. unfold EosFitModel.yes_no. now rewrite (answered _ _ _ Hn). }
    exists ls. split; [|exact M]. change (ans ++ n :: rest) with (ans ++ [n] ++ rest). rewrite app_assoc.
    rewrite (goes_app _ _ _ _ _ _ _ G E rest). assert (D : conversation EosFitModel.Done rest = ([], CliModel.Ok None)) by (destruct rest; reflexivity).
    rewrite D. cbn [fst snd]. now rewrite app_nil_r.
  - inversion GR as [|? ? GW GRs]; subst. inversion GU as [|? g ? gs' (Ug & L4) U0]; subst. cbn [combine] in *.
    inversion FT as [|? r ? rs' Fr F0]; subst. cbn [combine map].
    destruct (wish_granted w g r df GW Ug L4 Fr ans T) as (ls & df' & G & M). destruct (IH gs' rs' df' GRs U0 F0) as (ls' & E' & M').
    assert (E : goes (EosFitModel.AtOther df') [yes] [""] (EosFitModel.AtData df')).
    { apply goes_turn; [discriminate|]. rewrite (turn_plain _ _ (EosFitModel.AtData df')); [reflexivity| |reflexivity]. cbn [EosFitModel.step]. unfold EosFitModel.yes_no. now rewrite (answered _ _ _ Hy). }
    exists (ls ++ [""] ++ ls'). split.
    + change (ans ++ yes :: more) with (ans ++ [yes] ++ more). rewrite app_assoc. rewrite (goes_app _ _ _ _ _ _ _ G E more), E'. cbn [fst snd]. now rewrite <- !app_assoc.
    + change (?x :: map ?h ?l) with ([x] ++ map h l). apply minutes_app; [exact M|]. cbn [app]. constructor. exact M'.
Qed.
End Data.
End Session.
