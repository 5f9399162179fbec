(** What the reader sees on the printed lines. *)
From Coq Require Import Reals String Ascii List Bool Arith ZArith Lia Lra.
From Flocq Require Import Core.
From Verif Require Import Py DecimalModel DecimalProofs FormatModel FormatProofs YamlSpec QhaWriterProofs TableModel TableProofs ReportModel ReportSpec.
Import ListNotations.
Open Scope string_scope.
Open Scope list_scope.
Open Scope nat_scope.

Lemma split_aux_join b : forall a cur, split_aux cur (a +++ String " " b) = split_aux cur a ++ split b.
Proof.
  induction a as [|c a IH]; intros cur.
  - cbn [String.append split_aux]. change (is_space " ") with true. cbv iota. unfold split. destruct cur; reflexivity.
  - cbn [String.append split_aux]. destruct (is_space c); [|apply IH]. destruct cur; [apply IH|]. cbn [app]. f_equal. apply IH.
Qed.
Lemma split_join a b : split (a +++ String " " b) = split a ++ split b.
Proof. apply split_aux_join. Qed.
Lemma words_join a b : words (a +++ String " " b) = words a ++ words b.
Proof. unfold words. rewrite split_join. apply filter_app. Qed.
Lemma split_blanks n : split (spaces n) = [].
Proof. rewrite <- (append_nil (spaces n)). rewrite split_spaces. reflexivity. Qed.
Lemma words_padded n s m : words (spaces n +++ s +++ spaces m) = words s.
Proof.
  unfold words. rewrite split_spaces. destruct m as [|m].
  - now rewrite append_nil.
  - change (spaces (S m)) with (String " " (spaces m)). rewrite split_join, split_blanks. now rewrite app_nil_r.
Qed.
Lemma words_center w s : words (center w s) = words s.
Proof. unfold center. apply words_padded. Qed.
Lemma words_pad_left w s : words (pad_left w s) = words s.
Proof. unfold pad_left. rewrite <- (append_nil s) at 2. change "" with (spaces 0). apply words_padded. Qed.
Lemma words_pad_right w s : words (pad_right w s) = words s.
Proof. unfold pad_right. change (words (spaces 0 +++ s +++ spaces (w - String.length s)) = words s). apply words_padded. Qed.
Lemma words_blank s : words (String " " s) = words s.
Proof. unfold words. change (String " " s) with (spaces 1 +++ s). now rewrite split_spaces. Qed.
Lemma says_join a b ca cb : says a ca -> says b cb -> says (a +++ String " " b) (ca ++ cb).
Proof. unfold says. intros A B. rewrite words_join. now apply Forall2_app. Qed.
Lemma says_gap a b ca cb : says a ca -> says b cb -> says (a +++ "  " +++ b) (ca ++ cb).
Proof. intros A B. change ("  " +++ b) with (String " " (String " " b)). apply says_join; [exact A|]. unfold says. now rewrite words_blank. Qed.
Lemma says_bar a b ca cb : says a ca -> says b cb -> says (a +++ " | " +++ b) (ca ++ cb).
Proof.
  intros A B. change (" | " +++ b) with (String " " ("|" +++ String " " b)). apply says_join; [exact A|]. unfold says. rewrite words_join. exact B.
Qed.
Lemma says_blank s cs : says s cs -> says (String " " s) cs.
Proof. unfold says. now rewrite words_blank. Qed.
Lemma says_center w s cs : says s cs -> says (center w s) cs.
Proof. unfold says. now rewrite words_center. Qed.
Lemma says_pad_left w s cs : says s cs -> says (pad_left w s) cs.
Proof. unfold says. now rewrite words_pad_left. Qed.
Lemma says_pad_right w s cs : says s cs -> says (pad_right w s) cs.
Proof. unfold says. now rewrite words_pad_right. Qed.
Lemma words_word w : no_space w -> w <> "" -> w <> "|" -> words w = [w].
Proof.
  intros A B C. unfold words. change w with (spaces 0 +++ w). rewrite split_last by assumption. cbn [spaces String.append filter].
  destruct (String.eqb_spec w "|"); [contradiction|reflexivity].
Qed.
Lemma fix_no_space k x : no_space (fix_text k x).
Proof. apply number_no_space, fix_chars. Qed.
Lemma number_not_bar w : all_chars number_char w = true -> w <> "|".
Proof. intros H E. rewrite E in H. discriminate H. Qed.
Lemma words_fix k x : words (fix_text k x) = [fix_text k x].
Proof. apply words_word; [apply fix_no_space|apply fix_nonempty|apply number_not_bar, fix_chars]. Qed.
Lemma says_plain k v : 1 <= k -> says (plain k v) [told k v].
Proof.
  intros K. destruct v as [x| |]; cbn [plain told]; [|repeat constructor|repeat constructor]. unfold says. rewrite words_fix.
  constructor; [|constructor]. exists (fix_value k x). split; [now apply parse_fix|apply fix_rounded].
Qed.
Lemma says_signed k v : 1 <= k -> says (signed k v) [told k v].
Proof.
  intros K. pose proof (says_plain k v K) as H. destruct v as [x| |]; cbn [signed told plain] in *; [|repeat constructor|repeat constructor].
  unfold fix_text in H. destruct (Rlt_bool x 0); cbn [minus_or] in *; [exact H|]. now apply says_blank.
Qed.
Lemma says_centred w k v : 1 <= k -> says (centred w k v) [told k v].
Proof. intros K. apply says_center. now apply says_plain. Qed.
Lemma says_right w k v : 1 <= k -> says (right w k v) [told k v].
Proof. intros K. apply says_pad_left. now apply says_signed. Qed.
Lemma says_right_plain w k v : 1 <= k -> says (right_plain w k v) [told k v].
Proof. intros K. apply says_pad_left. now apply says_plain. Qed.
(** Small and capital exponents are read alike. *)
Lemma lower_digit a : is_digit a = true -> lower_ascii a = a.
Proof. destruct a as [[] [] [] [] [] [] [] []]; vm_compute; intros H; try discriminate; reflexivity. Qed.
Lemma lower_is_digit a : is_digit (lower_ascii a) = is_digit a.
Proof. destruct a as [[] [] [] [] [] [] [] []]; reflexivity. Qed.
Lemma lower_sign a c : c = "-"%char \/ c = "+"%char \/ c = "."%char -> Ascii.eqb (lower_ascii a) c = Ascii.eqb a c.
Proof. intros [->|[->| ->]]; destruct a as [[] [] [] [] [] [] [] []]; reflexivity. Qed.
Lemma lower_twice a : lower_ascii (lower_ascii a) = lower_ascii a.
Proof. destruct a as [[] [] [] [] [] [] [] []]; reflexivity. Qed.
Lemma lower_lower s : lower (lower s) = lower s.
Proof. induction s as [|a s IH]; cbn [lower]; [reflexivity|]. now rewrite lower_twice, IH. Qed.
Lemma take_digits_lower s : take_digits (lower s) = (fst (take_digits s), lower (snd (take_digits s))).
Proof.
  induction s as [|a s IH]; [reflexivity|]. cbn [lower take_digits]. rewrite lower_is_digit. destruct (is_digit a) eqn:D; [|reflexivity].
  rewrite IH. cbn [fst snd]. now rewrite lower_digit.
Qed.
Lemma take_sign_lower s : take_sign (lower s) = (fst (take_sign s), lower (snd (take_sign s))).
Proof.
  destruct s as [|a s]; [reflexivity|]. cbn [lower take_sign]. rewrite !lower_sign by auto.
  destruct (Ascii.eqb a "-"); [reflexivity|]. destruct (Ascii.eqb a "+"); reflexivity.
Qed.
Lemma parse_lower s : parse_float (lower s) = parse_float s.
Proof.
  unfold parse_float. rewrite take_sign_lower. destruct (take_sign s) as (neg, s1). cbn [fst snd]. rewrite lower_lower.
  destruct (String.eqb (lower s1) "nan"); [reflexivity|]. rewrite take_digits_lower. destruct (take_digits s1) as (ip, s2). cbn [fst snd].
  assert (F : match lower s2 with String a r => if Ascii.eqb a "." then take_digits r else ("", lower s2) | "" => ("", lower s2) end =
    (fst (match s2 with String a r => if Ascii.eqb a "." then take_digits r else ("", s2) | "" => ("", s2) end),
     lower (snd (match s2 with String a r => if Ascii.eqb a "." then take_digits r else ("", s2) | "" => ("", s2) end)))).
  { destruct s2 as [|a r]; [reflexivity|]. cbn [lower]. rewrite lower_sign by auto. destruct (Ascii.eqb a "."); [apply take_digits_lower|reflexivity]. }
  rewrite F. destruct (match s2 with String a r => if Ascii.eqb a "." then take_digits r else ("", s2) | "" => ("", s2) end) as (fp, s3). cbn [fst snd].
  destruct (ip +++ fp) as [|c0 t0]; [reflexivity|]. destruct s3 as [|c r]; [reflexivity|]. cbn [lower]. rewrite lower_twice.
  destruct (Ascii.eqb (lower_ascii c) "e"); [|reflexivity]. rewrite take_sign_lower. destruct (take_sign r) as (eneg, r1). cbn [fst snd].
  rewrite take_digits_lower. destruct (take_digits r1) as (ed, r2). cbn [fst snd]. destruct ed; [reflexivity|]. destruct r2; reflexivity.
Qed.
Lemma lower_app a b : lower (a +++ b) = lower a +++ lower b.
Proof. induction a as [|c a IH]; [reflexivity|]. cbn [String.append lower]. now rewrite IH. Qed.
Lemma lower_digits s : all_chars is_digit s = true -> lower s = s.
Proof. induction s as [|a s IH]; [reflexivity|]. cbn [all_chars lower]. intros H. apply andb_prop in H as (A & B). now rewrite lower_digit, IH. Qed.
Lemma lower_fixed k n : lower (print_fixed k n) = print_fixed k n.
Proof.
  unfold print_fixed. rewrite !lower_app. rewrite (lower_digits (print_nat _)) by apply print_nat_digits. rewrite (lower_digits (fixed k _)) by apply fixed_digits. reflexivity.
Qed.
Definition sci_small (k : nat) (x : R) : string := minus_or "" (Rlt_bool x 0) +++ small_e k x.
Lemma sci_small_lower k x : sci_small k x = lower (sci_body k x).
Proof.
  unfold sci_small, sci_body, small_e. rewrite !lower_app, lower_fixed, minus_or_sign. unfold exp_text. rewrite !lower_app, (lower_digits (print_nat _)) by apply print_nat_digits.
  destruct (Rlt_bool x 0), (_ <? 0)%Z, (_ <? 10)%Z; reflexivity.
Qed.
Lemma lower_not_space s : no_space s -> no_space (lower s).
Proof.
  unfold no_space. intros H. induction s as [|a s IH]; [reflexivity|]. cbn [all_chars lower] in *. apply andb_prop in H as (A & B). rewrite (IH B), andb_true_r.
  destruct a as [[] [] [] [] [] [] [] []]; try discriminate A; reflexivity.
Qed.
Lemma says_small k x : 1 <= k -> says (sci_small k x) [Digits k x].
Proof.
  intros K. rewrite sci_small_lower. unfold says. rewrite words_word.
  - constructor; [|constructor]. exists (sci_value k x). rewrite parse_lower. split; [now apply parse_sci|apply sci_rounded].
  - apply lower_not_space, number_no_space, sci_chars.
  - pose proof (sci_nonempty k x). destruct (sci_body k x); [contradiction|discriminate].
  - pose proof (number_not_bar _ (sci_chars k x)) as N. destruct (sci_body k x) as [|a [|b s]] eqn:E; try discriminate. intros Q. apply N. cbn [lower] in Q. injection Q as Q.
    destruct a as [[] [] [] [] [] [] [] []]; try discriminate Q; reflexivity.
Qed.
Lemma says_centred_e w k x : 1 <= k -> says (centred_e w k x) [Digits k x].
Proof. intros K. apply says_center. now apply says_small. Qed.
Lemma says_right_e w k x : 1 <= k -> says (right_e w k x) [Digits k x].
Proof.
  intros K. apply says_pad_left. pose proof (says_small k x K) as H. unfold sci_small in H. destruct (Rlt_bool x 0); cbn [minus_or] in *; [exact H|]. now apply says_blank.
Qed.
Lemma says_text s cs : words s = cs -> says s (map Word cs).
Proof. intros <-. unfold says. induction (words s); constructor; [reflexivity|assumption]. Qed.
Lemma contains_here (a b : list string) : contains (a ++ b) a.
Proof. now exists [], b. Qed.
Lemma contains_skip (a b c : list string) : contains b c -> contains (a ++ b) c.
Proof. intros (p & q & ->). exists (a ++ p), q. now rewrite <- app_assoc. Qed.
Lemma contains_left (a b c : list string) : contains a c -> contains (a ++ b) c.
Proof. intros (p & q & ->). exists p, (q ++ b). now rewrite <- !app_assoc. Qed.
Lemma rows_say {A} (f : A -> string) (Q : A -> string -> Prop) l : (forall x, Q x (f x)) -> Forall2 Q l (map f l).
Proof. intros H. induction l; constructor; auto. Qed.
(** Integers *)
Lemma parse_nat neg n : parse_float (sign_text neg +++ print_nat n) = Some (Num ((if neg then -1 else 1) * IZR (Z.of_N n))).
Proof.
  unfold parse_float. rewrite <- (append_nil (print_nat n)), take_sign_number.
  assert (NN : String.eqb (lower (print_nat n +++ "")) "nan" = false).
  { destruct (digits_head n) as (a & s & -> & D & _). apply digit_not_nan. exact D. }
  rewrite NN, take_number by exact I. rewrite append_nil. destruct (digits_head n) as (a & s & E & _). rewrite E. cbv iota. rewrite <- E.
  unfold literal. cbn [String.length]. rewrite append_nil. change (0 - Z.of_nat 0)%Z with 0%Z. rewrite powerRZ_O, Rmult_1_r. unfold digits. rewrite (print_nat_value 0).
  reflexivity.
Qed.
Lemma parse_int z : parse_float (int_text z) = Some (Num (IZR z)).
Proof.
  unfold int_text. rewrite minus_or_sign, parse_nat. do 2 f_equal. rewrite Z2N.id by apply Z.abs_nonneg. destruct (Z.ltb_spec z 0).
  - rewrite Z.abs_neq by lia. rewrite opp_IZR. ring.
  - rewrite Z.abs_eq by lia. ring.
Qed.
Lemma says_int z : says (int_text z) [Whole z].
Proof.
  unfold says. rewrite words_word.
  - constructor; [apply parse_int|constructor].
  - apply number_no_space, int_chars.
  - apply int_nonempty.
  - apply number_not_bar, int_chars.
Qed.
Lemma says_word w : no_space w -> w <> "" -> w <> "|" -> says w [Word w].
Proof. intros A B C. unfold says. rewrite words_word by assumption. repeat constructor. Qed.
(** The same with the cells of the line computed at the end. *)
Lemma says_bar' a b ca cb cs : says a ca -> says b cb -> cs = ca ++ cb -> says (a +++ " | " +++ b) cs.
Proof. intros A B ->. now apply says_bar. Qed.
Lemma says_gap' a b ca cb cs : says a ca -> says b cb -> cs = ca ++ cb -> says (a +++ "  " +++ b) cs.
Proof. intros A B ->. now apply says_gap. Qed.
Lemma says_space' a b ca cb cs : says a ca -> says b cb -> cs = ca ++ cb -> says (a +++ " " +++ b) cs.
Proof. intros A B ->. now apply says_join. Qed.
Lemma says_indent s cs : says s cs -> says ("    " +++ s) cs.
Proof. intros H. now do 4 apply says_blank. Qed.
Lemma says_indent2 s cs : says s cs -> says ("  " +++ s) cs.
Proof. intros H. now do 2 apply says_blank. Qed.
Lemma says_fields {A} (f : A -> string) (c : A -> cell) l : (forall x, says (f x) [c x]) -> says (concat_map (fun x => f x +++ "    ") l) (map c l).
Proof.
  intros H. induction l as [|x l IH]; [constructor|]. change (concat_map (fun x => f x +++ "    ") (x :: l)) with ((f x +++ "    ") +++ concat_map (fun x => f x +++ "    ") l).
  rewrite append_assoc. change ("    " +++ ?r) with (String " " ("   " +++ r)). apply (says_join _ _ [c x]); [apply H|]. now do 3 apply says_blank.
Qed.
Lemma says_columns {A} (f : A -> string) (c : A -> cell) l a ca : says a ca -> (forall x, says (f x) [c x]) ->
  says (a +++ concat_map (fun x => "  " +++ f x) l) (ca ++ map c l).
Proof.
  intros Ha H. revert a ca Ha. induction l as [|x l IH]; intros a ca Ha; [cbn [concat_map fold_right map]; now rewrite append_nil, app_nil_r|].
  change (concat_map (fun x => "  " +++ f x) (x :: l)) with (("  " +++ f x) +++ concat_map (fun x => "  " +++ f x) l). rewrite <- append_assoc.
  change (map c (x :: l)) with ([c x] ++ map c l). rewrite app_assoc. apply IH. now apply says_gap.
Qed.
Lemma says_literal s : says s (map Word (words s)).
Proof. now apply says_text. Qed.
Ltac literal := match goal with |- says ?s _ => let ws := eval vm_compute in (words s) in let cs := eval cbn [map] in (map Word ws) in
  exact (says_text s ws (@eq_refl (list string) ws <: words s = ws) : says s cs) end.
