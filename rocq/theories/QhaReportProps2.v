(** C88, second part: the fits of the frequencies, the tables of results, and the
    harmonic report. *)
From Coq Require Import Reals String Ascii List Bool Arith ZArith Lia Lra.
From Coquelicot Require Import Coquelicot.
From Flocq Require Import Core.
From Verif Require Import Py DecimalModel DecimalProofs FormatModel FormatProofs TableModel StatMechModel UnitsModel UnitsSpec UnitsProofs UnitsProps PolyModel PolyProps PolyfitProofs EvEosModel EvEosProps
  QhaRunModel QhaRunProps QhaRunProps2 QhaEqProps ReportModel ReportSpec ReportProofs QhaReportModel QhaConciseProps QhaReportProps.
Import ListNotations.
Open Scope string_scope.
Open Scope list_scope.
Open Scope nat_scope.

(** ** What the report should say *)
(** The share of the variance of the data which the polynomial leaves unexplained. *)
Definition unexplained (c : nat -> R) (nc : nat) (v y : nat -> R) (n : nat) : R :=
  (psum (fun j => (y j - poly c nc (v j)) ^ 2) n / ss y (PolyProps.mean y n) n)%R.
Definition verdict (share : R) (w : string) : Prop :=
  (w = "OK" <-> (share <= 10 / 100)%R) /\ (w = "Low" <-> (10 / 100 < share <= 20 / 100)%R) /\ (w = "BAD!" <-> (20 / 100 < share)%R).
Definition mode_cells (j : nat) (r2 : R) (w : string) : list cell :=
  [Word "*"; Word "Frequency"; Word (int_text (Z.of_nat j + 1) +++ ":"); Word "R^2"; Word "="; Decimals 6 r2; Word w].

(** ** Proofs *)
Lemma split_aux_tab b : forall a cur, split_aux cur (a +++ tab +++ b) = split_aux cur a ++ split b.
Proof.
  induction a as [|c a IH]; intros cur.
  - change ("" +++ tab +++ b) with (String "009" b). cbn [split_aux]. change (is_space "009") with true. cbv iota. unfold split. destruct cur; reflexivity.
  - change (String c a +++ tab +++ b) with (String c (a +++ tab +++ b)). cbn [split_aux]. destruct (is_space c); [destruct cur; rewrite IH; reflexivity|apply IH].
Qed.
Lemma says_tab a b ca cb : says a ca -> says b cb -> says (a +++ tab +++ b) (ca ++ cb).
Proof. unfold says, words. intros A B. unfold split at 1. rewrite split_aux_tab. rewrite filter_app. now apply Forall2_app. Qed.
Lemma int_no_space z : no_space (int_text z).
Proof.
  unfold int_text. apply no_space_app; [destruct (z <? 0)%Z; reflexivity|]. unfold no_space.
  generalize (print_nat_digits (Z.to_N (Z.abs z))). generalize (print_nat (Z.to_N (Z.abs z))). clear. induction s as [|a t IH]; [reflexivity|]. cbn [all_chars]. intros H. apply andb_prop in H as (A & B).
  rewrite (IH B), andb_true_r. destruct (digit_not_sign a A) as (_ & _ & _ & ->). reflexivity.
Qed.
Lemma mode_says j r2 : says (mode_line j r2) (mode_cells j r2 (flag r2)).
Proof.
  unfold mode_line, mode_cells.
  change ("   * Frequency " +++ ?r) with (String " " (String " " (String " " ("*" +++ String " " ("Frequency" +++ String " " r))))). do 3 apply says_blank.
  apply (says_join _ _ [Word "*"]); [literal|]. apply (says_join _ _ [Word "Frequency"]); [literal|].
  change (": R^2 = " +++ ?r) with (":" +++ String " " ("R^2" +++ String " " ("=" +++ String " " r))). rewrite <- append_assoc.
  apply (says_join _ _ [Word (int_text (Z.of_nat j + 1) +++ ":")]).
  - unfold pad_left. rewrite append_assoc. unfold says. rewrite <- (append_nil (int_text _ +++ ":")). change "" with (spaces 0) at 2. rewrite words_padded.
    replace (Z.of_nat (j + 1)) with (Z.of_nat j + 1)%Z by lia. apply says_word; [apply no_space_app; [apply int_no_space|reflexivity]| |].
    + intros E. apply (f_equal String.length) in E. rewrite append_length in E. cbn in E. lia.
    + intros E. assert (L := f_equal String.length E). rewrite append_length in L. cbn in L.
      destruct (int_text (Z.of_nat j + 1)); [discriminate E|cbn in L; lia].
  - apply (says_join _ _ [Word "R^2"]); [literal|]. apply (says_join _ _ [Word "="]); [literal|].
    apply (says_tab _ _ [Decimals 6 r2] [Word (flag r2)]); [apply (says_plain 6 (Fin r2)); lia|].
    unfold flag. destruct (Rle_dec (90 / 100) r2); [literal|]. destruct (Rle_dec (80 / 100) r2); literal.
Qed.
Lemma flag_verdict r2 share : (r2 = 1 - share)%R -> verdict share (flag r2).
Proof.
  intros ->. unfold verdict, flag. destruct (Rle_dec (90 / 100) (1 - share)); [|destruct (Rle_dec (80 / 100) (1 - share))];
    (split; [|split]); split; intros H; try discriminate; try reflexivity; lra.
Qed.

Section Fits.
Variable s : settings.
Variable x : input.
Variable np_polyfit : nat -> (nat -> R) -> (nat -> R) -> nat -> list R.
Variable phonons : bands.
Notation text := (report_fits s x np_polyfit phonons).
Definition coefficients (q j : nat) : nat -> R := fun k => nth k (np_polyfit (nvol x) (volume x) (freq phonons q j) (fdeg s)) 0%R.

Lemma flat_map_contains {A} (f : A -> list string) l a : In a l -> contains (flat_map f l) (f a).
Proof.
  induction l as [|b l IH]; [contradiction|]. intros [->|H]; cbn [flat_map]; [apply contains_here|apply contains_skip; auto].
Qed.
Lemma band_block q : q < nb phonons -> contains text ((" - Band # " +++ int_text (Z.of_nat q)) ::
  map (fun j => mode_line j (fit_quality s x np_polyfit phonons q j)) (seq 0 (nf phonons)) ++ ["   Averaged R^2: " +++ fix_text 6 (average (nf phonons) (fit_quality s x np_polyfit phonons q))]).
Proof.
  intros Hq. unfold report_fits. apply contains_skip.
  assert (C : contains (flat_map (fun q => report_fit (nf phonons) q (fit_quality s x np_polyfit phonons q)) (seq 0 (nb phonons)))
    (report_fit (nf phonons) q (fit_quality s x np_polyfit phonons q))) by (apply (flat_map_contains (fun q => report_fit (nf phonons) q (fit_quality s x np_polyfit phonons q))); apply in_seq; lia).
  destruct C as (b & a & C). exists b, ("" :: a). rewrite C. unfold report_fit. f_equal. cbn [app]. f_equal. rewrite <- !app_assoc. reflexivity.
Qed.
(** ** C88 *)
(** For every band a block with one line per mode: R^2 and a verdict. For a mode
    whose frequencies differ, fitted by least squares, R^2 is one minus the share
    of the variance left unexplained, and the verdict is OK up to 10%, Low up to
    20%, BAD! above. *)
Theorem C88_fits q : q < nb phonons ->
  exists lines last, contains text ((" - Band # " +++ int_text (Z.of_nat q)) :: lines ++ [last]) /\
  Forall2 (fun j l => exists r2 w, says l (mode_cells j r2 w) /\
    (j < nf phonons -> ~ constant (freq phonons q j) (nvol x) -> least_squares (coefficients q j) (S (fdeg s)) (volume x) (freq phonons q j) (nvol x) ->
     let share := unexplained (coefficients q j) (S (fdeg s)) (volume x) (freq phonons q j) (nvol x) in
     (0 <= share <= 1)%R /\ r2 = (1 - share)%R /\ verdict share w)) (seq 0 (nf phonons)) lines.
Proof.
  intros Hq. eexists _, _. split.
  - now apply band_block.
  - apply rows_say. intros j. eexists _, _. split; [apply mode_says|]. intros Hj NC LS share.
    destruct (C66_least_squares (nf phonons) (S (fdeg s)) (nvol x) (volume x) (freq phonons q) (coefficients q) j Hj ltac:(lia) NC LS) as (A & B & _).
    change (fit_quality s x np_polyfit phonons q j) with (multi_R2 (nf phonons) (S (fdeg s)) (nvol x) (volume x) (freq phonons q) (coefficients q) j).
    assert (RS : multi_R2 (nf phonons) (S (fdeg s)) (nvol x) (volume x) (freq phonons q) (coefficients q) j = (1 - share)%R) by exact B.
    split; [rewrite RS in A; lra|]. split; [exact RS|]. now apply flag_verdict.
Qed.
(** The last line of a block is the mean of R^2 over the modes. *)
Theorem C88_fits_average q : q < nb phonons -> 0 < nf phonons ->
  exists lines last, contains text ((" - Band # " +++ int_text (Z.of_nat q)) :: lines ++ [last]) /\
  exists r2, Forall2 (fun j l => exists w, says l (mode_cells j (r2 j) w)) (seq 0 (nf phonons)) lines /\
    says last [Word "Averaged"; Word "R^2:"; Decimals 6 (psum r2 (nf phonons) / INR (nf phonons))%R].
Proof.
  intros Hq Hn. eexists _, _. split.
  - now apply band_block.
  - exists (fit_quality s x np_polyfit phonons q). split; [apply rows_say; intros j; eexists; apply mode_says|].
    replace (psum (fit_quality s x np_polyfit phonons q) (nf phonons) / INR (nf phonons))%R with (average (nf phonons) (fit_quality s x np_polyfit phonons q)).
    + change ("   Averaged R^2: " +++ ?r) with (String " " (String " " (String " " ("Averaged" +++ String " " ("R^2:" +++ String " " r))))). do 3 apply says_blank.
      apply (says_join _ _ [Word "Averaged"]); [literal|]. apply (says_join _ _ [Word "R^2:"]); [literal|].
      apply (says_plain 6 (Fin (average (nf phonons) (fit_quality s x np_polyfit phonons q)))). lia.
    + unfold average. f_equal. generalize (fit_quality s x np_polyfit phonons q) (nf phonons). clear. intros f n. induction n as [|n IH]; [reflexivity|].
      rewrite seq_S, fold_left_app. cbn [fold_left Nat.add]. rewrite IH. cbn [psum]. reflexivity.
Qed.
(** A mode with the same frequency at every volume is declared BAD! with R^2 = 0,
    although the polynomial passes through all the points. *)
Theorem C88_constant_mode_refuted q j : q < nb phonons -> j < nf phonons -> constant (freq phonons q j) (nvol x) ->
  (forall k, k < nvol x -> poly (coefficients q j) (S (fdeg s)) (volume x k) = freq phonons q j k) ->
  exists l, contains text [l] /\ says l (mode_cells j 0 "BAD!").
Proof.
  intros Hq Hj C _. exists (mode_line j (fit_quality s x np_polyfit phonons q j)). split.
  - unfold report_fits. apply contains_skip.
    assert (C' : contains (flat_map (fun q => report_fit (nf phonons) q (fit_quality s x np_polyfit phonons q)) (seq 0 (nb phonons)))
      (report_fit (nf phonons) q (fit_quality s x np_polyfit phonons q))) by (apply (flat_map_contains (fun q => report_fit (nf phonons) q (fit_quality s x np_polyfit phonons q))); apply in_seq; lia).
    destruct C' as (b & a & ->). apply contains_skip. apply contains_left. unfold report_fit. apply contains_skip, contains_left.
    assert (M : In j (seq 0 (nf phonons))) by (apply in_seq; lia). apply in_split in M as (l1 & l2 & ->). rewrite map_app. cbn [map].
    apply contains_skip. eexists [], _. reflexivity.
  - assert (Z : fit_quality s x np_polyfit phonons q j = 0%R) by (apply (C66_value (nf phonons) (S (fdeg s)) (nvol x) (volume x) (freq phonons q) (coefficients q) j Hj); exact C).
    rewrite Z. replace "BAD!" with (flag 0); [apply mode_says|]. unfold flag. destruct (Rle_dec (90 / 100) 0); [lra|]. destruct (Rle_dec (80 / 100) 0); [lra|reflexivity].
Qed.
End Fits.

Section Results.
Variable K : constants.
Variables hplanck kboltzmann : R.
Hypothesis PK : positive_constants K.
Variable fit : fit_function.
Variable roots : list R -> list (R * R).
Variable eos_fit : string -> nat -> (nat -> R) -> (nat -> R) -> outcome (R * R * R * R).
Variables kieffer_Cv kieffer_S : nat -> R -> R.
Variable float_text : R -> string.
Variable s : settings.
Variable x : input.
Notation run := (QhaRunModel.run K hplanck kboltzmann fit roots eos_fit kieffer_Cv kieffer_S s x).
Hypotheses (Ut : no_space (tunit s)) (Up : no_space (punit s)).
Definition result_names : list cell :=
  with_unit "T" (tunit s) ++ with_unit "V(T)" "A^3" ++ with_unit "a_V" "K^-1" ++ with_unit "KT" (punit s) ++ with_unit "KS" (punit s) ++ [Word "Cp-Cv"; Word "(J/mol"; Word "K)"].

Lemma row_says t v a kt ks c : says (result_row t v a kt ks c) [Decimals 1 t; Decimals 6 v; Digits 8 a; Decimals 3 kt; Decimals 3 ks; Decimals 6 c].
Proof.
  unfold result_row.
  apply (says_space' _ _ [Decimals 1 t] [Decimals 6 v; Digits 8 a; Decimals 3 kt; Decimals 3 ks; Decimals 6 c]); [apply (says_right _ _ (Fin t)); lia| |reflexivity].
  apply (says_space' _ _ [Decimals 6 v] [Digits 8 a; Decimals 3 kt; Decimals 3 ks; Decimals 6 c]); [apply (says_right _ _ (Fin v)); lia| |reflexivity].
  apply (says_space' _ _ [Digits 8 a] [Decimals 3 kt; Decimals 3 ks; Decimals 6 c]); [apply says_right_e; lia| |reflexivity].
  apply (says_space' _ _ [Decimals 3 kt] [Decimals 3 ks; Decimals 6 c]); [apply (says_right _ _ (Fin kt)); lia| |reflexivity].
  apply (says_space' _ _ [Decimals 3 ks] [Decimals 6 c]); [apply (says_right _ _ (Fin ks)); lia| |reflexivity].
  apply (says_space' _ "" [Decimals 6 c] []); [apply (says_right _ _ (Fin c)); lia|constructor|reflexivity].
Qed.
Lemma results_text tl pl r de ce : meaning (energy_units K) (lower (eunit s)) = Some de -> from_eunit K s = Ok ce ->
  exists text, report_results K float_text s tl pl r = Ok text /\
  forall i, i < List.length pl -> exists ls, contains text (("# Results at " +++ float_text (nth i pl 0%R) +++ " " +++ punit s) :: bar_line :: "" :: ls) /\
    table_block result_names (List.length tl)
      (fun j cs => cs = [Decimals 1 (nth j tl 0%R); Decimals 6 (VT r j i); Digits 8 (alphaV r j i); Decimals 3 (KT r j i); Decimals 3 (KS r j i);
         Decimals 6 (N_A K * (fst de * CpCv r j i / 1000))%R]) ls.
Proof.
  intros Me Ece. unfold report_results. rewrite Ece. cbn [bind]. eexists. split; [reflexivity|]. intros i Hi.
  destruct (energy_scale K PK _ _ _ Ece) as (d1 & d2 & M1 & M2 & P1 & P2 & SC). rewrite Me in M1. injection M1 as <-.
  assert (d2 = (1000 / N_A K, 0)%R) by (change (Some (1000 / N_A K, 0)%R = Some d2) in M2; congruence). subst d2. cbn [fst] in *.
  match goal with |- context [flat_map ?f _] => pose proof (flat_map_contains f (seq 0 (List.length pl)) i ltac:(apply in_seq; lia)) as C; cbv beta in C; set (T := flat_map f (seq 0 (List.length pl))) in *; clearbody T end.
  cbn [app] in C. match type of C with contains _ (_ :: _ :: _ :: _ :: _ :: ?h :: ?b :: ?m ++ _) => exists (h :: b :: m) end. split.
  - destruct C as (b & a & C). rewrite C. exists (b ++ [""; bar_line]), ("" :: a). rewrite <- !app_assoc. cbn [app]. do 8 f_equal. rewrite <- app_assoc. reflexivity.
  - eexists _, _, _. split; [reflexivity|]. split.
    + unfold result_names. eapply says_space'; [apply says_center, (label_says "T"); [reflexivity|discriminate|discriminate|exact Ut]| |reflexivity].
      eapply says_space'; [apply says_center, (label_says "V(T)" "A^3"); [reflexivity|discriminate|discriminate|reflexivity]| |reflexivity].
      eapply says_space'; [apply says_center, (label_says "a_V" "K^-1"); [reflexivity|discriminate|discriminate|reflexivity]| |reflexivity].
      eapply says_space'; [apply says_center, (label_says "KT"); [reflexivity|discriminate|discriminate|exact Up]| |reflexivity].
      eapply says_space'; [apply says_center, (label_says "KS"); [reflexivity|discriminate|discriminate|exact Up]| |reflexivity].
      apply says_center. literal.
    + apply rows_say. intros j. eexists. split; [reflexivity|].
      replace (N_A K * (fst de * CpCv r j i / 1000))%R with (ce (CpCv r j i)); [apply row_says|]. rewrite SC. field. destruct PK. lra.
Qed.

(** For every pressure of the grid a titled table with one line per temperature:
    the equilibrium volume, the thermal expansion, the two bulk moduli, and
    Cp - Cv, which is N_A a_V^2 KT V T in SI units (J/mol K). *)
Theorem C88_results tl pl r d de dp dv :
  run tl pl = Ok r -> 50 <= List.length tl ->
  meaning temperature_units (lower (tunit s)) = Some d -> meaning (energy_units K) (lower (eunit s)) = Some de ->
  meaning pressure_units (lower (punit s)) = Some dp -> meaning (volume_units K) (lower (vunit s)) = Some dv ->
  exists text, report_results K float_text s tl pl r = Ok text /\
  forall i, i < List.length pl -> exists ls, contains text (("# Results at " +++ float_text (nth i pl 0%R) +++ " " +++ punit s) :: bar_line :: "" :: ls) /\
    table_block result_names (List.length tl)
      (fun j cs => exists c, cs = [Decimals 1 (nth j tl 0%R); Decimals 6 (VT r j i); Digits 8 (alphaV r j i); Decimals 3 (KT r j i); Decimals 3 (KS r j i); Decimals 6 c] /\
         c = (N_A K * (alphaV r j i ^ 2 * (fst dp * KT r j i) * (fst dv * VT r j i) * si d (nth j tl 0)))%R) ls.
Proof.
  intros E L Md Me Mp Mv. destruct (long_inv _ _ _ _ _ _ _ _ _ _ _ _ _ E L) as (_ & ce & _ & _ & _ & _ & _ & _ & _ & _ & Ece & _).
  destruct (results_text tl pl r de ce Me Ece) as (text & ET & B). exists text. split; [exact ET|]. intros i Hi. destruct (B i Hi) as (ls & C & head & bar & rows & -> & HS & RS).
  exists (head :: bar :: rows). split; [exact C|]. exists head, bar, rows. split; [reflexivity|]. split; [exact HS|].
  assert (HIn : List.Forall (fun j => j < List.length tl) (seq 0 (List.length tl))) by (apply Forall_forall; intros j Hj; apply in_seq in Hj; lia).
  clear B C HS. induction RS as [|j l jl ls (cs & -> & HL) RS IH]; [constructor|]. inversion HIn as [|? ? Hj HIn']; subst. constructor; [|now apply IH].
  eexists. split; [|exact HL]. eexists. split; [reflexivity|].
  destruct (C70_Cp_minus_Cv K hplanck kboltzmann PK fit roots eos_fit kieffer_Cv kieffer_S s x tl pl r d de dp dv E L Md Me Mp Mv j i Hj Hi) as (Q & _). rewrite Q. ring.
Qed.
(** The name of the volume column is always A^3: with volumes in another unit the
    number under it is not the volume in A^3. *)
Theorem C88_volume_label_refuted tl pl r d de dp dv :
  run tl pl = Ok r -> 50 <= List.length tl ->
  meaning temperature_units (lower (tunit s)) = Some d -> meaning (energy_units K) (lower (eunit s)) = Some de ->
  meaning pressure_units (lower (punit s)) = Some dp -> meaning (volume_units K) (lower (vunit s)) = Some dv -> fst dv <> (Angstrom_m K ^ 3)%R ->
  exists text, report_results K float_text s tl pl r = Ok text /\
  forall i, i < List.length pl -> exists ls, contains text (("# Results at " +++ float_text (nth i pl 0%R) +++ " " +++ punit s) :: bar_line :: "" :: ls) /\
    table_block result_names (List.length tl)
      (fun j cs => exists v rest, cs = Decimals 1 (nth j tl 0%R) :: Decimals 6 v :: rest /\
         (VT r j i <> 0%R -> v * Angstrom_m K ^ 3 <> fst dv * VT r j i)%R) ls.
Proof.
  intros E L Md Me Mp Mv N. destruct (C88_results tl pl r d de dp dv E L Md Me Mp Mv) as (text & ET & B). exists text. split; [exact ET|]. intros i Hi.
  destruct (B i Hi) as (ls & C & head & bar & rows & -> & HS & RS).
  exists (head :: bar :: rows). split; [exact C|]. exists head, bar, rows. split; [reflexivity|]. split; [exact HS|].
  clear - RS N. induction RS as [|j l jl ls (cs & (c & -> & _) & HL) RS IH]; constructor; [|exact IH].
  eexists. split; [|exact HL]. eexists _, _. split; [reflexivity|]. intros NZ Q. apply N. apply Rmult_eq_reg_r with (VT r j i); [|exact NZ]. rewrite <- Q. ring.
Qed.
End Results.

(** The harmonic report *)
Theorem C88_harmonic s x h : no_space (eunit s) -> no_space (vunit s) ->
  let text := report_input_ha s x h in
  contains text ["Job: " +++ job h] /\
  (exists ls, contains text ("System:" :: ls) /\ system_block h (nvol x) (Ztrunc (IZR (natoms h * 3) * total_q_points x)) ls) /\
  exists ls, contains text ls /\
    table_block (with_unit "Volume" (vunit s +++ "^3") ++ with_unit "Energy" (eunit s)) (nvol x)
      (fun i cs => cs = [Decimals 6 (volume x i); Digits 12 (static_energy x i)]) ls.
Proof.
  intros Ue Uv text. unfold text, report_input_ha.
  match goal with |- contains (system_lines h x ++ ?r) _ /\ _ => destruct (system_contains h x r) as (A & B) end. split; [exact A|]. split; [exact B|].
  eexists. split.
  - apply contains_skip. rewrite (app_assoc _ (map _ _)). apply contains_here.
  - eexists _, _, _. split; [reflexivity|]. split.
    + apply says_blank. eapply says_space'; [apply says_center, volume_label; exact Uv|apply says_center, energy_label; exact Ue|reflexivity].
    + apply rows_say. intros i. eexists. split; [reflexivity|]. apply says_blank.
      apply (says_space' _ _ [Decimals 6 (volume x i)] [Digits 12 (static_energy x i)]); [apply (says_centred _ _ (Fin (volume x i))); lia|apply says_centred_e; lia|reflexivity].
Qed.

(** ** Concrete cases *)
(** The system of C73: volumes 10..13 A^3 with a parabolic energy. *)
Example C88_input_instance h : exists text, report_input codata (fun _ _ _ _ => Raises "") (fun _ => "") (sys_settings "td" "poly") sys_input h = Ok text /\
  exists ls, contains text ls /\ table_block [Word "Pressure"; Word "(GPa)"; Word "Volume"; Word "(A^3)"; Word "Energy"; Word "(Ha)"] 4
    (fun i cs => i = 2 -> cs = [Decimals 3 (- (2 * Ha_J codata / (Angstrom_m codata) ^ 3) / 10 ^ 9)%R; Decimals 6 12; Digits 12 1]) ls.
Proof.
  destruct (C88_input codata (fun _ _ _ _ => Raises "") (fun _ => "") (sys_settings "td" "poly") sys_input eq_refl eq_refl eq_refl h _ _ _ eq_refl eq_refl eq_refl eq_refl) as (text & E & _ & _ & ls & C & head & bar & rows & -> & HS & RS).
  - cbn. lia.
  - intros i j _ _ Q. cbn [volume sys_input] in Q. apply INR_eq. lra.
  - exists text. split; [exact E|]. exists (head :: bar :: rows). split; [exact C|]. exists head, bar, rows. split; [reflexivity|]. split; [exact HS|].
    change (seq 0 4) with (seq 0 (nvol sys_input)). clear - RS. induction RS as [|i l il ls (cs & (t & (_ & _ & T3) & ->) & HL) RS IH]; constructor; [|exact IH]. eexists. split; [|exact HL]. intros ->.
    destruct (T3 ltac:(lia) ltac:(cbn; lia)) as (a & b & c & Q & ->). pose proof (Q 1 ltac:(auto)) as Q1. pose proof (Q 2 ltac:(auto)) as Q2. pose proof (Q 3 ltac:(auto)) as Q3.
    cbn [static_energy volume sys_input] in *. cbn [INR] in *.
    assert (T : (b + 2 * c * (10 + (1 + 1)) = 2)%R) by lra. rewrite T. cbn [fst]. do 2 f_equal; [f_equal; lra|]. f_equal. f_equal. lra.
Qed.
(** The same system with acoustic branches asked for and two k-points: a warning;
    with one k-point: none. *)
Example C88_warning_instance text text' :
  let st := {| qha_scheme := "td"; minimization := "poly"; eos_function := "birchmurnaghan"; kieffer_on := true; edeg := 2; fdeg := 1;
     eunit := "Ha"; funit := "cm^-1"; vunit := "A"; tunit := "K"; punit := "GPa" |} in
  report_input codata (fun _ _ _ _ => Raises "") (fun _ => "") st sys_input {| job := ""; natoms := 1; kpoints := 2 |} = Ok text ->
  report_input codata (fun _ _ _ _ => Raises "") (fun _ => "") st sys_input {| job := ""; natoms := 1; kpoints := 1 |} = Ok text' ->
  List.Exists (fun l => warning l = true) text /\ ~ List.Exists (fun l => warning l = true) text'.
Proof.
  intros st A B. apply C88_warning in A. apply C88_warning in B. cbn [kpoints kieffer_on st] in A, B. split; [apply A; split; [lia|reflexivity]|rewrite B; intros (X & _); lia].
Qed.
(** Frequencies 0, 5, 6 at the volumes 1, 2, 3 and the least-squares line -7/3 + 3 v:
    4/31 of the variance are unexplained, the report says Low. *)
Example C88_fits_instance :
  let x := {| nvol := 3; volume := fun k => INR (S k); static_energy := fun _ => 0%R; frequencies := {| nb := 1; nf := 1; nv := 3; freq := fun _ _ _ => 0%R |}; weights := fun _ => 1%R; total_q_points := 1%R |} in
  let ph := {| nb := 1; nf := 1; nv := 3; freq := fun _ _ k => nth k [0; 5; 6]%R 0%R |} in
  exists l r2, contains (report_fits (sys_settings "freq" "poly") x (fun _ _ _ _ => [- 7 / 3; 3]%R) ph) [l] /\ says l (mode_cells 0 r2 "Low") /\ r2 = (1 - 4 / 31)%R.
Proof.
  intros x ph. destruct (C88_fits (sys_settings "freq" "poly") x (fun _ _ _ _ => [- 7 / 3; 3]%R) ph 0 ltac:(cbn; lia)) as (lines & last & C & F0).
  inversion F0 as [|? l ? rest (r2 & w & HL & HR) F1 Q1 Q2]; subst. change (rest) with rest in F1. inversion F1; subst.
  exists l, r2. destruct HR as (_ & HR & (_ & V & _)).
  - cbn. lia.
  - intros K. pose proof (K 0 ltac:(cbn; lia)) as K0. unfold PolyProps.mean in K0. cbn in K0. lra.
  - intros k Hk. cbn [fdeg sys_settings] in Hk. unfold coefficients, poly. cbn. destruct k as [|[|k]]; [cbn; field|cbn; field|lia].
  - assert (SH : unexplained (coefficients (sys_settings "freq" "poly") x (fun _ _ _ _ => [- 7 / 3; 3]%R) ph 0 0) (S (fdeg (sys_settings "freq" "poly"))) (volume x) (freq ph 0 0) (nvol x) = (4 / 31)%R).
    { unfold unexplained, coefficients, poly, ss, PolyProps.mean. cbn. field. }
    rewrite SH in *. split; [|split; [|exact HR]].
    + destruct C as (b & a & C). cbn [app] in C. exists (b ++ [" - Band # " +++ int_text (Z.of_nat 0)]), (last :: a). rewrite C, <- app_assoc. reflexivity.
    + assert (w = "Low") as <- by (apply V; lra). exact HL.
Qed.
(** The constant mode of the same system *)
Example C88_constant_mode_instance : constant (freq (frequencies sys_input) 0 0) (nvol sys_input).
Proof. intros j _. unfold PolyProps.mean. cbn. field. Qed.
Example C88_results_instance : exists r text, sys_run "freq" "eos" sys_T sys_P = Ok r /\
  report_results codata (fun _ => "5.0") (sys_settings "freq" "eos") sys_T sys_P r = Ok text /\
  exists ls, contains text ("# Results at 5.0 GPa" :: bar_line :: "" :: ls) /\
    table_block (result_names (sys_settings "freq" "eos")) 60 (fun j cs => exists rest, cs = Decimals 1 (nth j sys_T 0%R) :: Decimals 6 (VT r j 1) :: rest) ls.
Proof.
  destruct (C73_instance "freq" "eos" (or_intror eq_refl)) as (r & E). exists r.
  destruct (C88_results codata _ _ codata_positive _ _ _ (fun _ _ => 0%R) (fun _ _ => 0%R) (fun _ => "5.0") (sys_settings "freq" "eos") sys_input eq_refl eq_refl sys_T sys_P r _ _ _ _ E
    ltac:(cbn; lia) eq_refl eq_refl eq_refl eq_refl) as (text & ET & B).
  exists text. split; [exact E|]. split; [exact ET|]. destruct (B 1 ltac:(cbn; lia)) as (ls & C & head & bar & rows & -> & HS & RS).
  exists (head :: bar :: rows). split; [exact C|]. exists head, bar, rows. split; [reflexivity|]. split; [exact HS|].
  change (seq 0 60) with (seq 0 (List.length sys_T)). clear - RS. induction RS as [|j l jl ls (cs & (c & -> & _) & HL) RS IH]; constructor; [|exact IH]. eexists. split; [|exact HL]. eexists. reflexivity.
Qed.
(** With the volumes in bohr the label is wrong: the two units differ. *)
Example C88_volume_label_instance : fst ((Bohr_m codata) ^ 3, 0)%R <> ((Angstrom_m codata) ^ 3)%R.
Proof. cbn. lra. Qed.
(** Murnaghan's equation with K' = 4: the hypotheses of the theorems with an
    equation of state, and of the one on errors which could not be found. *)
Definition murnaghan_settings : settings :=
  {| qha_scheme := "td"; minimization := "eos"; eos_function := "murnaghan"; kieffer_on := false; edeg := 2; fdeg := 1;
     eunit := "Ha"; funit := "cm^-1"; vunit := "A"; tunit := "K"; punit := "GPa" |}.
Example C88_input_eos_instance h : exists text,
  report_input codata (fun _ _ _ _ => Ok ((0, 1, 4, 11)%R, (Inf, Fin 0, Inf, Inf))) (fun _ => "x") murnaghan_settings sys_input h = Ok text /\
  contains text ["K0 = x(x)"] /\ exists ls, contains text ls /\
  table_block [Word "Pressure"; Word "(GPa)"; Word "Volume"; Word "(A^3)"; Word "Energy"; Word "(Ha)"] 4
    (fun i cs => exists t, is_derive (fun V => ev_murnaghan V 0 1 4 11)%R (10 + INR i)%R t /\
       cs = [Decimals 3 (- (t * Ha_J codata / (Angstrom_m codata) ^ 3) / 10 ^ 9)%R; Decimals 6 (10 + INR i)%R; Digits 12 ((INR i - 1) ^ 2)%R]) ls.
Proof.
  destruct (C88_input_eos codata (fun _ _ _ _ => Ok ((0, 1, 4, 11)%R, (Inf, Fin 0, Inf, Inf))) (fun _ => "x") murnaghan_settings sys_input eq_refl eq_refl eq_refl
    (Ha_J codata, 0%R) ((Angstrom_m codata) ^ 3, 0)%R (10 ^ 9, 0)%R 0 1 4 11 Inf (Fin 0) Inf Inf eq_refl eq_refl eq_refl eq_refl eq_refl h ev_murnaghan
    "E0 = x(inf)" "K0 = x(x)" "K' = x(inf)" "V0 = x(inf)" eq_refl (or_introl eq_refl)) as (text & E & ls & C & B); try lra.
  - intros i _. cbn [volume sys_input]. pose proof (pos_INR i). lra.
  - reflexivity.
  - unfold parameter, concise, shown_in_unit, in_unit. unfold Rdiv. rewrite !Rmult_0_l. rewrite Rlt_bool_false, Req_bool_true by lra. reflexivity.
  - reflexivity.
  - reflexivity.
  - exists text. split; [exact E|]. split; [|exists ls; split; [|exact B]].
    + destruct C as (p & q & ->). exists (p ++ ls ++ [""; "EoS fitting parameters for static energy vs volume data:"; "E0 = x(inf)"]), (["K' = x(inf)"; "V0 = x(inf)"] ++ q). rewrite <- !app_assoc. reflexivity.
    + destruct C as (p & q & ->). rewrite <- app_assoc. eexists p, _. reflexivity.
Qed.
Example C88_nan_error_instance h :
  report_input codata (fun _ _ _ _ => Ok ((0, 1, 4, 11)%R, (Nan, Nan, Nan, Nan))) (fun _ => "x") murnaghan_settings sys_input h = Raises "ValueError".
Proof.
  apply (C88_nan_error_refuted codata _ (fun _ => "x") murnaghan_settings sys_input (Ha_J codata, 0%R) ((Angstrom_m codata) ^ 3, 0)%R (10 ^ 9, 0)%R 0 1 4 11 Nan Nan Nan Nan
    eq_refl eq_refl eq_refl eq_refl eq_refl h ev_murnaghan eq_refl); cbn; try lra; [auto|]. intros e [Q|[Q|[Q|[Q|[]]]]]; discriminate.
Qed.

Print Assumptions C88_fits.
Print Assumptions C88_fits_average.
Print Assumptions C88_constant_mode_refuted.
Print Assumptions C88_results.
Print Assumptions C88_volume_label_refuted.
Print Assumptions C88_harmonic.
