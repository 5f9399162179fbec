(** C89: the printed reports of the equation of state calculator. *)
From Coq Require Import Reals Lra Lia String Ascii List Bool Arith ZArith.
From Verif Require Import Py DecimalModel DecimalProofs FormatModel FormatProofs TableModel ReportModel ReportSpec ReportProofs QhaReportProps EosReaderModel EosReaderProps EosReportModel.
Import ListNotations.
Open Scope string_scope.
Open Scope list_scope.
Open Scope nat_scope.

(** ** Specification *)
(** What is said of a datum of the input, with k decimals. *)
Definition datum (k : nat) (v : fl) : cell := match v with Num x => Decimals k x | NaN => Word "nan" end.
(** The datum in row i of a column, or two dashes when there is no such column. *)
Definition entry (c : option (list fl)) (i : nat) (said : cell) : Prop :=
  match c with Some xs => exists v, nth_error xs i = Some v /\ said = datum 5 v | None => said = Word "--" end.
(** The columns as long as the pressures. *)
Definition complete (d : data) (n : nat) : Prop := forall q xs, In q ["v"; "a"; "b"; "c"] -> cols d q = Some xs -> List.length xs = n.
Definition quantities : list cell :=
  with_unit "P" "GPa" ++ with_unit "V" "A^3" ++ with_unit "a" "A" ++ with_unit "b" "A" ++ with_unit "c" "A".
Definition weights : list (string * string) :=
  [("sigmap", "pressure"); ("sigmav", "volume"); ("sigmaa", "a-axis"); ("sigmab", "b-axis"); ("sigmac", "c-axis")].
(** A value of a row of the file under the name q, or dashes without that name. *)
Definition of_file (toks : list string) (row q : string) (k : nat) (c : cell) : Prop :=
  (exists n v, names_column toks q n /\ value row n = Some v /\ c = datum k v) \/ ((forall n, ~ names_column toks q n) /\ c = Word "--").

(** ** Lines *)
Lemma as_long {A B} (Q : A -> B -> Prop) l m : Forall2 Q l m -> List.length l = List.length m.
Proof. induction 1; cbn; congruence. Qed.
Lemma told_measured k v : told k (measured v) = datum k v.
Proof. now destruct v. Qed.
Lemma field_says c i n : (forall xs, c = Some xs -> List.length xs = n) -> i < n -> exists l cell, field c i = Some l /\ says l [cell] /\ entry c i cell.
Proof.
  intros H L. destruct c as [xs|]; cbn [field entry].
  - destruct (nth_error xs i) as [v|] eqn:E; [|apply nth_error_None in E; rewrite (H xs eq_refl) in E; lia]. cbn [option_map].
    eexists _, _. split; [reflexivity|]. split; [apply says_centred; lia|]. exists v. split; [reflexivity|apply told_measured].
  - eexists _, _. split; [reflexivity|]. split; [|reflexivity]. literal.
Qed.
Definition row_cells (d : data) (i : nat) (p : fl) (cs : list cell) : Prop :=
  exists v a b c, entry (cols d "v") i v /\ entry (cols d "a") i a /\ entry (cols d "b") i b /\ entry (cols d "c") i c /\ cs = [datum 3 p; v; a; b; c].
Lemma line_says d i p n : complete d n -> i < n -> exists l cs, data_line d i p = Some l /\ says l cs /\ row_cells d i p cs.
Proof.
  intros C L. unfold data_line.
  destruct (field_says (cols d "v") i n (fun xs => C "v" xs (or_introl eq_refl)) L) as (lv & v & -> & Sv & Ev).
  destruct (field_says (cols d "a") i n (fun xs => C "a" xs (or_intror (or_introl eq_refl))) L) as (la & a & -> & Sa & Ea).
  destruct (field_says (cols d "b") i n (fun xs => C "b" xs (or_intror (or_intror (or_introl eq_refl)))) L) as (lb & b & -> & Sb & Eb).
  destruct (field_says (cols d "c") i n (fun xs => C "c" xs (or_intror (or_intror (or_intror (or_introl eq_refl))))) L) as (lc & c & -> & Sc & Ec).
  eexists _, _. split; [reflexivity|]. split; [|exists v, a, b, c; repeat (split; [eassumption|]); reflexivity].
  rewrite <- told_measured.
  eapply says_gap'; [apply says_centred; lia| |reflexivity].
  eapply says_gap'; [exact Sv| |reflexivity]. eapply says_gap'; [exact Sa| |reflexivity]. eapply says_gap'; [exact Sb|exact Sc|reflexivity].
Qed.
Lemma lines_say d n : complete d n -> forall ps i, i + List.length ps <= n ->
  exists ls, data_lines d i ps = Some ls /\ Forall2 (fun '(j, p) l => exists cs, says l cs /\ row_cells d j p cs) (combine (seq i (List.length ps)) ps) ls.
Proof.
  intros C. induction ps as [|p ps IH]; intros i L; [exists []; split; [reflexivity|constructor]|].
  cbn [List.length] in L. destruct (line_says d i p n C ltac:(lia)) as (l & cs & E & Sl & Rl). destruct (IH (Datatypes.S i) ltac:(lia)) as (ls & Es & Fs).
  exists (l :: ls). split; [cbn [data_lines]; now rewrite E, Es|]. cbn [List.length seq combine]. constructor; [|exact Fs]. exists cs. now split.
Qed.
Lemma quantity_line : says (center 10 "P (GPa)" +++ "  " +++ center 10 "V (A^3)" +++ "  " +++ center 10 "a (A)" +++ "  " +++ center 10 "b (A)" +++ "  " +++ center 10 "c (A)") quantities.
Proof. literal. Qed.

(** Which lines can announce weights. *)
Definition announces (l name : string) : Prop := l = " - Found weights for " +++ name.
Lemma row_silent d i p l cs name : says l cs -> row_cells d i p cs -> ~ announces l name.
Proof.
  intros Sl (v & a & b & c & _ & _ & _ & _ & ->) E. rewrite E in Sl. clear E l. unfold says in Sl. revert Sl.
  change (" - Found weights for " +++ name) with (" - Found weights for" +++ String " " name). rewrite words_join.
  change (words " - Found weights for") with ["-"; "Found"; "weights"; "for"]. cbn [app]. intros H. inversion H as [|? ? ? ? H1 _]; subst.
  destruct p as [x|]; cbn [datum reads] in H1; [|discriminate]. destruct H1 as (w & H1 & _). vm_compute in H1. discriminate.
Qed.
Lemma name_inj a b : " - Found weights for " +++ a = " - Found weights for " +++ b -> a = b.
Proof. intros H. cbn [String.append] in H. now injection H. Qed.
Lemma weight_in d key name l : In l (weight_line d key name) <-> l = " - Found weights for " +++ name /\ cols d key <> None.
Proof.
  unfold weight_line. destruct (cols d key).
  - cbn [In]. split; [intros [<-|[]]; split; [reflexivity|discriminate]|intros [-> _]; now left].
  - split; [intros []|intros (_ & []); reflexivity].
Qed.
Lemma weights_in d key name : In (key, name) weights -> In (" - Found weights for " +++ name) (weight_lines d) <-> cols d key <> None.
Proof.
  intros I. unfold weight_lines. rewrite !in_app_iff, !weight_in. unfold weights in I. cbn [In] in I.
  split.
  - intros H. repeat (destruct H as [(H & N)|H]; [apply name_inj in H; repeat (destruct I as [I|I]; [injection I as <- <-; try discriminate H; exact N|]); contradiction|]).
    destruct H as (H & N). apply name_inj in H. repeat (destruct I as [I|I]; [injection I as <- <-; try discriminate H; exact N|]); contradiction.
  - intros N. repeat (destruct I as [I|I]; [injection I as <- <-; tauto|]). contradiction.
Qed.

(** ** C89: the input *)
(** The title, one line for each pressure with the measured values under their
    names, and which of the quantities have uncertainties. *)
Theorem C89_input d ps : cols d "p" = Some ps -> complete d (List.length ps) ->
  exists text, report_input_data d = Some text /\ contains text ["Job: " +++ job d] /\
  (exists head bar rows, contains text (head :: bar :: rows) /\ says head quantities /\
     Forall2 (fun '(i, p) l => exists v a b c, entry (cols d "v") i v /\ entry (cols d "a") i a /\ entry (cols d "b") i b /\ entry (cols d "c") i c /\
       says l [datum 3 p; v; a; b; c]) (combine (seq 0 (List.length ps)) ps) rows) /\
  forall key name, In (key, name) weights -> In (" - Found weights for " +++ name) text <-> cols d key <> None.
Proof.
  intros EP C. unfold report_input_data. rewrite EP. destruct (lines_say d _ C ps 0 (le_n _)) as (rows & -> & F). eexists. split; [reflexivity|]. split; [|split].
  - exists [""]. eexists. reflexivity.
  - eexists _, _, rows. split; [|split; [exact quantity_line|]].
    + exists [""; "Job: " +++ job d; ""]. eexists. reflexivity.
    + clear - F. induction F as [|(i, p) l ips ls (cs & Sl & v & a & b & c & Ev & Ea & Eb & Ec & ->) F IH]; constructor; [|exact IH]. exists v, a, b, c. now repeat (split; [assumption|]).
  - intros key name I. rewrite <- (weights_in d key name I). rewrite !in_app_iff. split; [|tauto].
    intros [H|[H|[H|[H|H]]]].
    + cbn [In] in H. repeat (destruct H as [H|H]; [discriminate H|]). contradiction.
    + exfalso. apply (in_split _ _) in H. destruct H as (l1 & l2 & ->). apply Forall2_app_inv_r in F. destruct F as (k1 & k2 & _ & F & _). inversion F as [|(i, p) ? ? ? (cs & Sl & Rl) _]; subst.
      exact (row_silent d i p _ cs name Sl Rl eq_refl).
    + cbn [In] in H. destruct H as [H|[]]. discriminate H.
    + exact H.
    + cbn [In] in H. destruct H as [H|[]]. discriminate H.
Qed.

(** From the file to the report: every row of the file with its own values. *)
Theorem C89_file lines title toks rows d :
  layout lines title toks rows -> job d = "Unknown" -> fmt d = [] -> (forall q, cols d q = None) ->
  NoDup (List.map lower toks) -> In "p" (List.map lower toks) ->
  (forall row q n, In row rows -> names_column toks q n -> value row n <> None) ->
  exists d' text, load lines d = (d', Completed) /\ report_input_data d' = Some text /\ contains text ["Job: " +++ title] /\
  exists head bar ls, contains text (head :: bar :: ls) /\ says head quantities /\
    Forall2 (fun row l => exists p v a b c, of_file toks row "p" 3 p /\ of_file toks row "v" 5 v /\ of_file toks row "a" 5 a /\
      of_file toks row "b" 5 b /\ of_file toks row "c" 5 c /\ says l [p; v; a; b; c]) rows ls.
Proof.
  intros L J F E ND HP V. destruct (C39_reads lines title toks rows d L J F ND HP V) as (d' & EL & EJ & Cn & Co).
  assert (K : forall q, In q ["p"; "v"; "a"; "b"; "c"] -> (exists n xs, names_column toks q n /\ cols d' q = Some xs /\ column rows n xs) \/ ((forall n, ~ names_column toks q n) /\ cols d' q = None)).
  { intros q Iq. destruct (in_dec string_dec q (List.map lower toks)) as [I|I].
    - left. apply in_map_iff in I. destruct I as (t & Et & It). apply In_nth_error in It. destruct It as (n & En).
      assert (N : names_column toks q n). { exists t. split; [exact En|]. split; [exact Et|]. cbn [In] in Iq. unfold documented. repeat (destruct Iq as [<-|Iq]; [cbn; tauto|]). contradiction. }
      destruct (Cn q n N) as (xs & A & B). exists n, xs. now split.
    - right. assert (N : forall n, ~ names_column toks q n). { intros n (t & En & Et & _). apply I. rewrite <- Et. apply in_map. eapply nth_error_In; exact En. }
      split; [exact N|]. now rewrite (Co q N). }
  destruct (K "p" (or_introl eq_refl)) as [(np & ps & Np & Ep & Cp)|(N & _)].
  2:{ exfalso. apply in_map_iff in HP. destruct HP as (t & Et & It). apply In_nth_error in It. destruct It as (n & En). apply (N n). exists t. split; [exact En|]. split; [exact Et|]. cbn; tauto. }
  assert (Len : forall n xs, column rows n xs -> List.length xs = List.length rows). { intros n xs H. symmetry. eapply as_long; exact H. }
  assert (Cm : complete d' (List.length ps)).
  { intros q xs Iq Eq. rewrite (Len np ps Cp). destruct (K q ltac:(cbn [In] in *; tauto)) as [(n & ys & _ & E2 & C2)|(_ & E2)]; [|congruence]. rewrite E2 in Eq. injection Eq as <-. now apply (Len n). }
  destruct (C89_input d' ps Ep Cm) as (text & ET & CJ & (head & bar & ls & CT & SH & FT) & _).
  exists d', text. split; [exact EL|]. split; [exact ET|]. split; [now rewrite <- EJ|]. exists head, bar, ls. split; [exact CT|]. split; [exact SH|].
  assert (EN : forall q i row c, In q ["v"; "a"; "b"; "c"] -> nth_error rows i = Some row -> entry (cols d' q) i c -> of_file toks row q 5 c).
  { intros q i row c Iq Er H. destruct (K q ltac:(cbn [In] in *; tauto)) as [(n & xs & N & Eq & C2)|(N & Eq)]; rewrite Eq in H; cbn [entry] in H.
    - left. destruct H as (v & Ev & ->). exists n, v. split; [exact N|]. split; [|reflexivity]. clear - C2 Er Ev. revert i Er Ev. induction C2 as [|r x rs xs Hv C2 IH]; intros [|i] Er Ev; cbn in *; try discriminate; [congruence|]. eapply IH; eassumption.
    - right. now split. }
  assert (GP : forall i row p, nth_error rows i = Some row -> nth_error ps i = Some p -> value row np = Some p).
  { clear - Cp. induction Cp as [|r x rs xs Hv C2 IH]; intros [|i] row p Er Ev; cbn in *; try discriminate; [congruence|]. eapply IH; eassumption. }
  clear - FT EN GP Np Cp. revert EN GP FT.
  assert (G : forall k r ls, (forall q i row c, In q ["v"; "a"; "b"; "c"] -> nth_error r i = Some row -> entry (cols d' q) (k + i) c -> of_file toks row q 5 c) -> forall ps', List.length ps' = List.length r ->
    (forall i row p, nth_error r i = Some row -> nth_error ps' i = Some p -> value row np = Some p) ->
    Forall2 (fun '(i, p) l => exists v a b c, entry (cols d' "v") i v /\ entry (cols d' "a") i a /\ entry (cols d' "b") i b /\ entry (cols d' "c") i c /\ says l [datum 3 p; v; a; b; c]) (combine (seq k (List.length ps')) ps') ls ->
    Forall2 (fun row l => exists p v a b c, of_file toks row "p" 3 p /\ of_file toks row "v" 5 v /\ of_file toks row "a" 5 a /\ of_file toks row "b" 5 b /\ of_file toks row "c" 5 c /\ says l [p; v; a; b; c]) r ls).
  { intros k r ls0; revert k ls0. induction r as [|row r IH]; intros k ls0 EN ps' Lp GP F; destruct ps' as [|p ps']; try discriminate Lp; cbn [List.length seq combine] in F; inversion F as [|? l ? ls1 H F']; subst; constructor.
    - destruct H as (v & a & b & c & Ev & Ea & Eb & Ec & Sl). exists (datum 3 p), v, a, b, c. rewrite <- (Nat.add_0_r k) in Ev, Ea, Eb, Ec.
      split; [left; exists np, p; split; [exact Np|]; split; [exact (GP 0 row p eq_refl eq_refl)|reflexivity]|].
      split; [eapply (EN "v" 0); [cbn; tauto|reflexivity|exact Ev]|]. split; [eapply (EN "a" 0); [cbn; tauto|reflexivity|exact Ea]|].
      split; [eapply (EN "b" 0); [cbn; tauto|reflexivity|exact Eb]|]. split; [eapply (EN "c" 0); [cbn; tauto|reflexivity|exact Ec]|]. exact Sl.
    - apply (IH (Datatypes.S k) ls1) with (ps' := ps'); [|now injection Lp| |exact F'].
      + intros q i row0 c Iq Er H0. apply (EN q (Datatypes.S i)); [exact Iq|exact Er|]. now rewrite <- plus_n_Sm.
      + intros i row0 p0 Er Ep. exact (GP (Datatypes.S i) row0 p0 Er Ep). }
  intros EN GP FT. eapply (G 0 rows ls); [exact EN| |exact GP|exact FT]. symmetry. eapply as_long. exact Cp.
Qed.
(** Columns of different lengths (the reader keeps those of another file, C38)
    stop the report. *)
Theorem C89_leftover_refuted d ps q xs : cols d "p" = Some ps -> In q ["v"; "a"; "b"; "c"] -> cols d q = Some xs -> List.length xs < List.length ps -> report_input_data d = None.
Proof.
  intros EP Iq Eq L. unfold report_input_data. rewrite EP.
  assert (B : forall i p, List.length xs <= i -> data_line d i p = None).
  { intros i p Hi. apply nth_error_None in Hi. unfold data_line. cbn [In] in Iq.
    assert (N : field (cols d q) i = None) by (rewrite Eq; cbn [field]; now rewrite Hi).
    destruct Iq as [<-|[<-|[<-|[<-|[]]]]]; rewrite N; repeat (match goal with |- match field ?c i with _ => _ end = _ => destruct (field c i) end); reflexivity. }
  assert (G : forall ps i, List.length xs < i + List.length ps -> 0 < List.length ps -> data_lines d i ps = None).
  { clear ps EP L. induction ps as [|p ps IH]; intros i Hl Hp; [cbn in Hp; lia|]. cbn [data_lines]. cbn [List.length] in Hl.
    destruct (le_lt_dec (List.length xs) i) as [H|H]; [now rewrite (B i p H)|]. rewrite (IH (Datatypes.S i)) by lia. now destruct (data_line d i p). }
  now rewrite (G ps 0) by lia.
Qed.

(** ** C89: a fit *)
Section Fit.
Variables (vunit : string) (r : output) (n : nat) (values pressure : nat -> shown) (key menu : string) (order : nat)
  (weighted_p weighted_v : bool) (fix_ : list nat).
Hypothesis Key : In key ["v"; "a"; "b"; "c"].
Hypothesis Order : 2 <= order <= 4.
Let report := report_fit vunit r n values pressure (data_name key) (eos_name menu) order weighted_p weighted_v fix_ (get_label key).

(** The four parameters: the volume's, or those of a cell axis. *)
Definition symbols (key : string) : list string :=
  match key with
  | "a" => ["M0(a)"; "M'(a)"; "M''(a)"; "a0"]
  | "b" => ["M0(b)"; "M'(b)"; "M''(b)"; "b0"]
  | "c" => ["M0(c)"; "M'(c)"; "M''(c)"; "c0"]
  | _ => ["K0"; "K'"; "K''"; "V0"]
  end.
(** The second order fixes K' and K'', the third one K''. *)
Definition implied (order i : nat) : bool := (i =? 1) && (order =? 2) || (i =? 2) && (order <=? 3).
Definition quantity_name (key : string) : string := match key with "v" => "Volume" | "a" => "a-axis" | "b" => "b-axis" | _ => "c-axis" end.
Definition parameter_cells (i : nat) : list cell :=
  [Word (nth i (symbols key) ""); Word "="; told 5 (beta r i); Word "+/-"; told 5 (sd_beta r i)] ++
  (if nth i fix_ 1 =? 0 then [Word "(FIXED)"] else []) ++ (if implied order i then [Word "[IMPLIED]"] else []).

Lemma marks_are : exists marks, implieds order = Some marks /\ forall i, i < 4 -> existsb (Nat.eqb i) marks = implied order i.
Proof.
  assert (O : order = 2 \/ order = 3 \/ order = 4) by lia.
  destruct O as [-> | [-> | ->]]; eexists; (split; [reflexivity|]); intros i Hi; destruct i as [|[|[|[|i]]]]; try reflexivity; lia.
Qed.
Lemma symbol_says i l : nth i (get_label key) "" = l -> i < 4 -> says (pad_right 6 l) [Word l] /\ l = nth i (symbols key) "".
Proof.
  intros E Hi. cbn [In] in Key. repeat (destruct Key as [<-|Key']; [clear Key; destruct i as [|[|[|[|i]]]]; [| | | |lia]; cbn in E; subst l; split; (reflexivity || literal)|clear Key; rename Key' into Key]). contradiction.
Qed.
Lemma parameter_says marks i l : nth i (get_label key) "" = l -> i < 4 -> existsb (Nat.eqb i) marks = implied order i ->
  says (parameter_line r fix_ marks i l) (parameter_cells i).
Proof.
  intros E Hi Em. destruct (symbol_says i l E Hi) as (Sl & El). unfold parameter_line, parameter_cells. rewrite Em, <- El. apply says_indent2.
  change (" = " +++ ?x) with (String " " ("=" +++ String " " x)).
  assert (T : forall (b1 b2 : bool), says (right 10 5 (sd_beta r i) +++ (if b1 then " (FIXED)" else "") +++ (if b2 then " [IMPLIED]" else ""))
    ([told 5 (sd_beta r i)] ++ (if b1 then [Word "(FIXED)"] else []) ++ (if b2 then [Word "[IMPLIED]"] else []))).
  { intros b1 b2. assert (Sd : says (right 10 5 (sd_beta r i)) [told 5 (sd_beta r i)]) by (apply says_right; lia).
    destruct b1, b2; cbn [app]; rewrite ?append_nil.
    - apply says_join with (ca := [told 5 (sd_beta r i)]) (cb := [Word "(FIXED)"; Word "[IMPLIED]"]); [exact Sd|literal].
    - apply says_join with (ca := [told 5 (sd_beta r i)]) (cb := [Word "(FIXED)"]); [exact Sd|literal].
    - apply says_join with (ca := [told 5 (sd_beta r i)]) (cb := [Word "[IMPLIED]"]); [exact Sd|literal].
    - exact Sd. }
  specialize (T (nth i fix_ 1 =? 0) (implied order i)).
  apply (says_join (pad_right 6 l) _ [Word l] ([Word "="] ++ _)); [exact Sl|].
  apply (says_join "=" _ [Word "="]); [literal|].
  apply (says_join (right 10 5 (beta r i)) ("+/- " +++ _) [told 5 (beta r i)] (Word "+/-" :: _)); [apply says_right; lia|].
  apply (says_join "+/-" _ [Word "+/-"]); [literal|exact T].
Qed.
Lemma text_is : exists marks, report = Some (
      [""; edge; "#" +++ center 78 ("EOS results for " +++ data_name key +++ " fitting") +++ "#"; edge; "";
       pad_left 15 "EOS formulation" +++ ": " +++ eos_name menu; pad_left 15 "EOS order" +++ ": " +++ int_text (Z.of_nat order); "";
       (if weighted_p then "Results weighted for pressure" else "Results not weighted for pressure");
       (if weighted_v then "Results weighted for " +++ data_name key else "Results not weighted for for " +++ data_name key); "";
       "Fitting parameters:"] ++
      enumerate (parameter_line r fix_ marks) 0 (get_label key) ++
      [""; "Covariance matrix:"] ++ map (fun i => covariance_line (cov_beta r i)) (seq 0 4) ++
      [""; "Residual variance: " +++ right_plain 6 4 (res_var r); ""; "Exited ODR loop because:"] ++
      enumerate (fun i reason => "  " +++ int_text (Z.of_nat (i + 1)) +++ ". " +++ reason) 0 (stopreason r) ++
      [""; "Calculated data:"; "";
       center 15 (value_label (data_name key) vunit) +++ " " +++ center 15 ("eps_" +++ first_letter (data_name key)) +++ " " +++ center 15 "Pressure (GPa)" +++ " " +++
       center 15 "P_obs (GPa)" +++ " " +++ center 15 "eps_P";
       rule 15 +++ " " +++ rule 15 +++ " " +++ rule 15 +++ " " +++ rule 15 +++ " " +++ rule 15] ++
      map (calculated_line r values pressure) (seq 0 n) ++ [""; edge; ""]) /\
  forall i, i < 4 -> existsb (Nat.eqb i) marks = implied order i.
Proof.
  destruct marks_are as (marks & E & H). exists marks. split; [|exact H]. unfold report, report_fit. rewrite E. do 5 f_equal.
  assert (L : List.length (get_label key) = 4) by (unfold get_label; now destruct (String.eqb key "v")). now rewrite L.
Qed.
Lemma name_is : data_name key = quantity_name key.
Proof. cbn [In] in Key. destruct Key as [<- | [<- | [<- | [<- | []]]]]; reflexivity. Qed.

(** Which fit this is: the quantity, the formulation, the order, and which of
    the data are weighted. *)
Theorem C89_fit : In menu ["1"; "2"; "3"; "4"; "5"] -> exists text, report = Some text /\
  contains text ["#" +++ center 78 ("EOS results for " +++ quantity_name key +++ " fitting") +++ "#"] /\
  (exists l1 l2, contains text [l1; l2] /\
     says l1 (map Word (["EOS"; "formulation:"] ++ match menu with "1" => ["Murnaghan"] | "2" => ["Birch-Murnaghan"] | "3" => ["Natural"; "Strain"] | "4" => ["Vinet"] | _ => ["Tait"] end)) /\
     says l2 [Word "EOS"; Word "order:"; Whole (Z.of_nat order)]) /\
  exists l1 l2, contains text [l1; l2] /\
    says l1 (map Word (if weighted_p then ["Results"; "weighted"; "for"; "pressure"] else ["Results"; "not"; "weighted"; "for"; "pressure"])) /\
    says l2 (map Word (if weighted_v then ["Results"; "weighted"; "for"; quantity_name key] else ["Results"; "not"; "weighted"; "for"; "for"; quantity_name key])).
Proof.
  intros M. destruct text_is as (marks & E & _). rewrite E. eexists. split; [reflexivity|]. rewrite name_is. split; [|split].
  - eexists [_; _], _. reflexivity.
  - eexists _, _. split; [eexists [_; _; _; _; _], _; reflexivity|]. split.
    + cbn [In] in M. destruct M as [<- | [<- | [<- | [<- | [<- | []]]]]]; literal.
    + apply (says_join (pad_left 15 "EOS order" +++ ":") _ [Word "EOS"; Word "order:"]); [literal|apply says_int].
  - eexists _, _. split; [eexists [_; _; _; _; _; _; _; _], _; reflexivity|].
    split; [destruct weighted_p; literal|]. cbn [In] in Key. destruct Key as [<- | [<- | [<- | [<- | []]]]]; destruct weighted_v; literal.
Qed.
(** The parameters with their standard errors, those kept fixed and those implied
    by the order marked. *)
Theorem C89_parameters : exists text, report = Some text /\ exists ls, contains text ("Fitting parameters:" :: ls) /\
  Forall2 (fun i l => says l (parameter_cells i)) (seq 0 4) ls.
Proof.
  destruct text_is as (marks & E & Hm). rewrite E. eexists. split; [reflexivity|]. exists (enumerate (parameter_line r fix_ marks) 0 (get_label key)). split.
  - eexists [_; _; _; _; _; _; _; _; _; _; _], _. reflexivity.
  - assert (P : forall i, i < 4 -> says (parameter_line r fix_ marks i (nth i (get_label key) "")) (parameter_cells i)) by (intros i Hi; apply parameter_says; auto).
    assert (G : exists a b c d, get_label key = [a; b; c; d]) by (unfold get_label; destruct (String.eqb key "v"); eauto).
    destruct G as (a & b & c & d & G). rewrite G in *.
    pose proof (P 0 ltac:(lia)) as P0. pose proof (P 1 ltac:(lia)) as P1. pose proof (P 2 ltac:(lia)) as P2. pose proof (P 3 ltac:(lia)) as P3. cbn [nth] in P0, P1, P2, P3.
    cbn [enumerate seq]. apply Forall2_cons; [exact P0|]. apply Forall2_cons; [exact P1|]. apply Forall2_cons; [exact P2|]. apply Forall2_cons; [exact P3|]. apply Forall2_nil.
Qed.
(** The covariance matrix, the residual variance and why scipy stopped. *)
Theorem C89_errors : exists text, report = Some text /\
  (exists ls, contains text ("Covariance matrix:" :: ls) /\
     Forall2 (fun i l => says l (map (fun j => Digits 5 (cov_beta r i j)) (seq 0 4))) (seq 0 4) ls) /\
  (exists l, contains text [l] /\ says l [Word "Residual"; Word "variance:"; told 4 (res_var r)]) /\
  exists ls, contains text ("Exited ODR loop because:" :: ls) /\
    Forall2 (fun '(i, reason) l => l = "  " +++ int_text (Z.of_nat i) +++ ". " +++ reason) (combine (seq 1 (List.length (stopreason r))) (stopreason r)) ls.
Proof.
  destruct text_is as (marks & E & _). rewrite E. eexists. split; [reflexivity|]. split; [|split].
  - exists (map (fun i => covariance_line (cov_beta r i)) (seq 0 4)). split.
    + apply contains_skip, contains_skip. eexists [_], _. reflexivity.
    + apply rows_say. intros i. unfold covariance_line. apply says_indent2.
      apply (says_join _ _ [Digits 5 (cov_beta r i 0)]); [apply says_right_e; lia|]. apply (says_join _ _ [Digits 5 (cov_beta r i 1)]); [apply says_right_e; lia|].
      apply (says_join _ _ [Digits 5 (cov_beta r i 2)] [Digits 5 (cov_beta r i 3)]); apply says_right_e; lia.
  - eexists. split; [apply contains_skip, contains_skip, contains_skip, contains_skip; eexists [_], _; reflexivity|].
    apply (says_join "Residual variance:" _ [Word "Residual"; Word "variance:"]); [literal|apply says_right_plain; lia].
  - exists (enumerate (fun i reason => "  " +++ int_text (Z.of_nat (i + 1)) +++ ". " +++ reason) 0 (stopreason r)). split; [apply contains_skip, contains_skip, contains_skip, contains_skip; eexists [_; _; _], _; reflexivity|].
    assert (G : forall l k, Forall2 (fun '(i, reason) l => l = "  " +++ int_text (Z.of_nat i) +++ ". " +++ reason) (combine (seq (Datatypes.S k) (List.length l)) l)
       (enumerate (fun i reason => "  " +++ int_text (Z.of_nat (i + 1)) +++ ". " +++ reason) k l)).
    { induction l as [|x l IH]; intros k; [constructor|]. cbn [List.length seq combine enumerate]. constructor; [now rewrite Nat.add_1_r|apply IH]. }
    apply G.
Qed.
(** The table of the data: the measured value and how far the fit moved it, the
    input pressure, the pressure of the fitted curve, and their difference. *)
Definition value_names (key unit : string) : list cell :=
  match key with
  | "v" => [Word "Volume"; Word ("(" +++ unit +++ "^3)"); Word "eps_V"]
  | "a" => [Word "a-axis"; Word ("(" +++ unit +++ ")"); Word "eps_a"]
  | "b" => [Word "b-axis"; Word ("(" +++ unit +++ ")"); Word "eps_b"]
  | _ => [Word "c-axis"; Word ("(" +++ unit +++ ")"); Word "eps_c"]
  end.
Theorem C89_calculated : no_space vunit -> exists text, report = Some text /\ exists head bar rows, contains text (head :: bar :: rows) /\
  says head (value_names key vunit ++ [Word "Pressure"; Word "(GPa)"; Word "P_obs"; Word "(GPa)"; Word "eps_P"]) /\
  Forall2 (fun i l => says l [told 5 (values i); told 5 (delta r i); told 5 (pressure i); told 5 (y r i); told 5 (eps r i)]) (seq 0 n) rows.
Proof.
  intros U. destruct text_is as (marks & E & _). rewrite E. eexists. split; [reflexivity|]. eexists _, _, (map (calculated_line r values pressure) (seq 0 n)). split; [|split].
  - do 6 apply contains_skip. eexists [_; _; _], _. reflexivity.
  - rewrite name_is.
    assert (L : says (center 15 (value_label (quantity_name key) vunit)) (firstn 2 (value_names key vunit)) /\ says (center 15 ("eps_" +++ first_letter (quantity_name key))) (skipn 2 (value_names key vunit))).
    { cbn [In] in Key. destruct Key as [<- | [<- | [<- | [<- | []]]]]; (split; [apply says_center|literal]).
      - change (firstn 2 (value_names "v" vunit)) with [Word "Volume"; Word ("(" +++ vunit +++ "^3)")].
        assert (A : vunit +++ "^3)" = (vunit +++ "^3") +++ ")") by now rewrite append_assoc.
        change (value_label (quantity_name "v") vunit) with ("Volume" +++ " (" +++ (vunit +++ "^3)")). rewrite A.
        apply (label_says "Volume" (vunit +++ "^3")); try discriminate; [reflexivity|]. apply no_space_app; [exact U|reflexivity].
      - apply (label_says "a-axis" vunit); try discriminate; [reflexivity|exact U].
      - apply (label_says "b-axis" vunit); try discriminate; [reflexivity|exact U].
      - apply (label_says "c-axis" vunit); try discriminate; [reflexivity|exact U]. }
    rewrite <- (firstn_skipn 2 (value_names key vunit)), <- app_assoc. destruct L as (L1 & L2).
    eapply says_space'; [exact L1| |reflexivity]. eapply says_space'; [exact L2| |reflexivity]. literal.
  - apply rows_say. intros i. unfold calculated_line.
    eapply says_space'; [apply says_centred; lia| |reflexivity]. eapply says_space'; [apply says_center, says_signed; lia| |reflexivity].
    eapply says_space'; [apply says_centred; lia| |reflexivity]. eapply says_space'; [apply says_centred; lia|apply says_center, says_signed; lia|reflexivity].
Qed.
End Fit.

(** ** Concrete cases *)
Definition two_points : data :=
  {| job := "NaCl"; cols := fun q => match q with "p" => Some [Num 0; Num 1] | "v" => Some [Num 100; NaN] | "sigmap" => Some [Num 1; Num 1] | _ => None end; fmt := [] |}.
Example C89_input_instance : cols two_points "p" = Some [Num 0; Num 1] /\ complete two_points 2 /\
  cols two_points "sigmap" <> None /\ cols two_points "sigmav" = None.
Proof.
  split; [reflexivity|]. split; [|split; [discriminate|reflexivity]]. intros q xs I. cbn [In] in I.
  destruct I as [<- | [<- | [<- | [<- | []]]]]; intros E; try discriminate E. cbn in E. now injection E as <-.
Qed.
Example C89_leftover_instance : report_input_data {| job := "NaCl"; cols := fun q => match q with "p" => Some [Num 0; Num 1] | "a" => Some [Num 5] | _ => None end; fmt := [] |} = None.
Proof. apply (C89_leftover_refuted _ [Num 0; Num 1] "a" [Num 5]); [reflexivity|right; now left|reflexivity|cbn; lia]. Qed.
Example C89_file_instance : exists d' text, load quartz class_data = (d', Completed) /\ report_input_data d' = Some text /\ contains text ["Job: Quartz, Angel et al."] /\
  exists ls l, contains text ls /\ In l ls /\ exists p v, says l [p; v; Word "--"; Word "--"; Word "--"] /\
    of_file ["v"; "SigmaV"; "P"; "sigp"] "111.725 0.005 0.429 0.01" "p" 3 p /\ of_file ["v"; "SigmaV"; "P"; "sigp"] "111.725 0.005 0.429 0.01" "v" 5 v.
Proof.
  destruct C39_instance as (L & _ & _ & _ & ND & V).
  destruct (C89_file quartz _ _ _ class_data L eq_refl eq_refl (fun _ => eq_refl) ND ltac:(cbn; tauto) V) as (d' & text & E & R & J & head & bar & ls & C & _ & F).
  exists d', text. split; [exact E|]. split; [exact R|]. split; [exact J|].
  inversion F as [|? l1 ? ls1 _ F1]; subst. inversion F1 as [|? l2 ? ls2 (p & v & a & b & c & Op & Ov & Oa & Ob & Oc & Sl) _]; subst.
  assert (Z : forall q c, ~ In q ["v"; "sigmav"; "p"; "sigp"] -> of_file ["v"; "SigmaV"; "P"; "sigp"] "111.725 0.005 0.429 0.01" q 5 c -> c = Word "--").
  { intros q x Nq [(n & w & (t & En & Et & _) & _)|(_ & H)]; [|exact H]. exfalso. apply Nq. apply nth_error_In in En. apply (in_map lower) in En. rewrite Et in En. exact En. }
  rewrite (Z "a" a) in Sl by (try exact Oa; cbn; intuition discriminate). rewrite (Z "b" b) in Sl by (try exact Ob; cbn; intuition discriminate). rewrite (Z "c" c) in Sl by (try exact Oc; cbn; intuition discriminate).
  eexists _, l2. split; [exact C|]. split; [do 3 right; now left|]. exists p, v. now split.
Qed.
(** A fit of a volume at third order with K0 kept. *)
Definition fit_of_two : output :=
  {| beta := fun i => Fin (nth i [200; 4; (-7 / 180); 100]%R 0%R); sd_beta := fun _ => Fin 0; cov_beta := fun i j => (INR i - INR j)%R; res_var := Inf; stopreason := ["Sum of squares convergence"];
     delta := fun _ => Fin 0; y := fun i => Fin (INR i + / 10)%R; eps := fun _ => Fin (/ 10)%R |}.
Example C89_fit_instance : exists text, report_fit "A" fit_of_two 2 (fun _ => Fin 100) (fun i => Fin (INR i)) "Volume" "Birch-Murnaghan" 3 true false [0; 1; 1; 1] ["K0"; "K'"; "K''"; "V0"] = Some text /\
  exists ls, contains text ("Fitting parameters:" :: ls) /\
    Forall2 says ls [[Word "K0"; Word "="; Decimals 5 200; Word "+/-"; Decimals 5 0; Word "(FIXED)"];
                     [Word "K'"; Word "="; Decimals 5 4; Word "+/-"; Decimals 5 0];
                     [Word "K''"; Word "="; Decimals 5 (-7 / 180); Word "+/-"; Decimals 5 0; Word "[IMPLIED]"];
                     [Word "V0"; Word "="; Decimals 5 100; Word "+/-"; Decimals 5 0]].
Proof.
  destruct (C89_parameters "A" fit_of_two 2 (fun _ => Fin 100) (fun i => Fin (INR i)) "v" "2" 3 true false [0; 1; 1; 1] ltac:(now left) ltac:(lia)) as (text & E & ls & C & F).
  exists text. split; [exact E|]. exists ls. split; [exact C|]. cbn [seq] in F.
  inversion F as [|? l0 ? ls0 S0 F0]; subst. inversion F0 as [|? l1 ? ls1 S1 F1]; subst. inversion F1 as [|? l2 ? ls2 S2 F2]; subst. inversion F2 as [|? l3 ? ls3 S3 F3]; subst. inversion F3; subst.
  apply Forall2_cons; [exact S0|]. apply Forall2_cons; [exact S1|]. apply Forall2_cons; [exact S2|]. apply Forall2_cons; [exact S3|]. apply Forall2_nil.
Qed.

Print Assumptions C89_input.
Print Assumptions C89_file.
Print Assumptions C89_leftover_refuted.
Print Assumptions C89_fit.
Print Assumptions C89_parameters.
Print Assumptions C89_errors.
Print Assumptions C89_calculated.
