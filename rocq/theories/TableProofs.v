From Coq Require Import Reals String Ascii List Bool Arith ZArith Lia Lra.
From Flocq Require Import Core.
From Verif Require Import Py DecimalModel DecimalProofs FormatModel FormatProofs YamlSpec QhaWriterProofs TableModel.
Import ListNotations.
Open Scope string_scope.
Open Scope list_scope.
Open Scope nat_scope.

(** * Numbers: their value, and how long they are *)
Definition number_value (st : style) (x : R) : R :=
  match st with Ttype => fix_value 2 x | Etype => sci_value 12 x | Vtype | Ptype => fix_value 8 x end.
(** The value printed, as the reader of a table sees it. *)
Definition as_printed (st : style) (x v : R) : Prop :=
  match st with Ttype => rounded 2 x v | Etype => rounded_sig 12 x v | Vtype | Ptype => rounded 8 x v end.
Lemma number_rounded st x : as_printed st x (number_value st x).
Proof. destruct st; cbn [as_printed number_value]; first [apply sci_rounded|apply fix_rounded]. Qed.
Lemma parse_sci k x : 1 <= k -> parse_float (sci_body k x) = Some (Num (sci_value k x)).
Proof.
  intros H. unfold sci_body. set (e := snd (sci_parts k x)).
  replace ("E" +++ exp_text e) with (exp_part2 (Some ((e <? 0)%Z, exp_digits e))) by (unfold exp_part2, exp_text, exp_digits; now destruct (e <? 0)%Z).
  destruct (exp_digits_ok e) as (A & B & C).
  rewrite parse_number by (exact H || (split; assumption)). cbn [exp_value]. rewrite C.
  assert (X : (if (e <? 0)%Z then (- Z.of_N (Z.to_N (Z.abs e)))%Z else Z.of_N (Z.to_N (Z.abs e))) = e).
  { rewrite Z2N.id by apply Z.abs_nonneg. destruct (Z.ltb_spec e 0); lia. }
  rewrite X. unfold sci_value, sgn. fold e. destruct (Rlt_bool x 0); reflexivity.
Qed.
Lemma parse_number_text st x : parse_float (number st x) = Some (Num (number_value st x)).
Proof. destruct st; cbn [number number_value]; first [apply parse_fix|apply parse_sci]; lia. Qed.
Lemma number_chars st x : all_chars number_char (number st x) = true.
Proof. destruct st; cbn [number]; first [apply fix_chars|apply sci_chars]. Qed.
Lemma number_nonempty st x : number st x <> "".
Proof. destruct st; cbn [number]; first [apply fix_nonempty|apply sci_nonempty]. Qed.

Lemma print_nat_length n m : (n < 10 ^ N.of_nat m)%N -> 1 <= m -> String.length (print_nat n) <= m.
Proof.
  intros H M. unfold print_nat. rewrite fixed_length. set (k := ndigits (N.size_nat n) n).
  destruct (Nat.le_gt_cases k 1) as [A|A]; [lia|].
  pose proof (ndigits_lower _ n (size_bound n) A) as L. fold k in L.
  assert (B : (10 ^ N.of_nat (k - 1) < 10 ^ N.of_nat m)%N) by lia.
  apply N.pow_lt_mono_r_iff in B; lia.
Qed.
Lemma print_fixed_length k n m : (n < 10 ^ N.of_nat (m + k))%N -> 1 <= m -> String.length (print_fixed k n) <= m + 1 + k.
Proof.
  intros H M. unfold print_fixed. rewrite !append_length, fixed_length. cbn [String.length].
  assert (String.length (print_nat (n / 10 ^ N.of_nat k)) <= m); [|lia].
  apply print_nat_length; [|exact M]. apply N.div_lt_upper_bound; [apply N.pow_nonzero; lia|].
  rewrite <- N.pow_add_r. now replace (N.of_nat k + N.of_nat m)%N with (N.of_nat (m + k)) by lia.
Qed.
Lemma scaled_bound k x m : (Rabs x <= powerRZ 10 (Z.of_nat m) - 1)%R -> (scaled k x < 10 ^ N.of_nat (m + k))%N.
Proof.
  intros H. unfold scaled. set (y := (Rabs x * powerRZ 10 (Z.of_nat k))%R).
  assert (P := p10 (Z.of_nat k)).
  assert (Y0 : (0 <= y)%R) by (apply Rmult_le_pos; [apply Rabs_pos|lra]).
  assert (Y : (y <= IZR (10 ^ Z.of_nat (m + k) - 10 ^ Z.of_nat k))%R).
  { rewrite minus_IZR, <- !pow_IZR, !pow_powerRZ, Nat2Z.inj_add, powerRZ_add by lra. unfold y.
    apply Rle_trans with ((powerRZ 10 (Z.of_nat m) - 1) * powerRZ 10 (Z.of_nat k))%R; [apply Rmult_le_compat_r; lra|lra]. }
  apply nearest_le_int in Y. pose proof (nearest_nonneg y Y0) as Z0. assert (0 < 10 ^ Z.of_nat k)%Z by (apply Z.pow_pos_nonneg; lia).
  apply N2Z.inj_lt. rewrite Z2N.id by exact Z0. rewrite N2Z.inj_pow, nat_N_Z. change (Z.of_N 10) with 10%Z. lia.
Qed.
Lemma fix_length k x m : (Rabs x <= powerRZ 10 (Z.of_nat m) - 1)%R -> 1 <= m ->
  String.length (fix_text k x) <= m + 1 + k + (if Rlt_bool x 0 then 1 else 0).
Proof.
  intros H M. unfold fix_text. rewrite append_length. pose proof (print_fixed_length k (scaled k x) m (scaled_bound k x m H) M).
  destruct (Rlt_bool x 0); cbn [minus_or String.length]; lia.
Qed.

Lemma sci_parts_bounds k x : x <> 0%R -> (fst (sci_parts k x) < 10 ^ N.of_nat (S k))%N /\ (exponent x <= snd (sci_parts k x) <= exponent x + 1)%Z.
Proof.
  intros H. unfold sci_parts. rewrite Req_bool_false by exact H.
  pose proof (exponent_bounds x H) as (L & U). set (e := exponent x) in *. set (y := (Rabs x * powerRZ 10 (Z.of_nat k - e))%R).
  assert (P := p10 (Z.of_nat k - e)).
  assert (Y0 : (0 <= y)%R) by (apply Rmult_le_pos; [apply Rabs_pos|lra]).
  assert (Y : (y <= IZR (10 ^ Z.of_nat (S k)))%R).
  { rewrite <- pow_IZR, pow_powerRZ. replace (Z.of_nat (S k)) with ((e + 1) + (Z.of_nat k - e))%Z by lia. rewrite (powerRZ_add _ (e + 1)) by lra. unfold y. apply Rmult_le_compat_r; lra. }
  apply nearest_le_int in Y. pose proof (nearest_nonneg y Y0) as Z0.
  destruct (N.eqb_spec (Z.to_N (ZnearestE y)) (10 ^ N.of_nat (S k))) as [C|C]; cbn [fst snd].
  - split; [|lia]. apply N.pow_lt_mono_r; lia.
  - split; [|lia]. assert (D : (Z.to_N (ZnearestE y) <= 10 ^ N.of_nat (S k))%N); [|lia].
    apply N2Z.inj_le. rewrite Z2N.id by exact Z0. rewrite N2Z.inj_pow, nat_N_Z. exact Y.
Qed.
Lemma exp_text_length e : (Z.abs e < 1000)%Z -> String.length (exp_text e) <= 4.
Proof.
  intros H. unfold exp_text. rewrite !append_length.
  assert (A : String.length (if (e <? 0)%Z then "-" else "+") = 1) by now destruct (e <? 0)%Z. rewrite A.
  destruct (Z.ltb_spec (Z.abs e) 10).
  - cbn [String.length]. pose proof (print_nat_length (Z.to_N (Z.abs e)) 1). change (10 ^ N.of_nat 1)%N with 10%N in *. lia.
  - cbn [String.length]. pose proof (print_nat_length (Z.to_N (Z.abs e)) 3). change (10 ^ N.of_nat 3)%N with 1000%N in *. lia.
Qed.
Lemma sci_length x : (x = 0 \/ powerRZ 10 (-999) <= Rabs x <= powerRZ 10 998)%R -> String.length (sci_body 12 x) <= 20.
Proof.
  intros H. assert (B : (fst (sci_parts 12 x) < 10 ^ N.of_nat (1 + 12))%N /\ (Z.abs (snd (sci_parts 12 x)) < 1000)%Z).
  { destruct (Req_dec x 0) as [->|N].
    - unfold sci_parts. rewrite Req_bool_true by reflexivity. cbn [fst snd]. split; [vm_compute; reflexivity|lia].
    - destruct H as [H|(L & U)]; [contradiction|]. destruct (sci_parts_bounds 12 x N) as (A & E). split; [exact A|].
      destruct (exponent_bounds x N) as (EL & EU).
      assert (E1 : (exponent x < 999)%Z).
      { destruct (Z.lt_ge_cases (exponent x) 999) as [|G]; [assumption|exfalso].
        assert (powerRZ 10 998 < powerRZ 10 (exponent x))%R; [|lra]. rewrite <- !(bpow_powerRZ radix10). apply bpow_lt. lia. }
      assert (E2 : (-1000 < exponent x)%Z).
      { destruct (Z.lt_ge_cases (-1000) (exponent x)) as [|G]; [assumption|exfalso].
        assert (powerRZ 10 (exponent x + 1) <= powerRZ 10 (-999))%R; [|lra]. rewrite <- !(bpow_powerRZ radix10). apply bpow_le. lia. }
      lia. }
  destruct B as (A & E). unfold sci_body. rewrite !append_length. cbn [String.length].
  pose proof (print_fixed_length 12 _ 1 A (le_n 1)) as P. pose proof (exp_text_length _ E) as Q.
  assert (String.length (sign_text (Rlt_bool x 0)) <= 1) by (unfold sign_text; destruct (Rlt_bool x 0); cbn [String.length]; lia). lia.
Qed.

(** Numbers which fit their column. *)
Definition fits (st : style) (x : R) : Prop :=
  match st with
  | Ttype => -999999 <= x <= 9999999
  | Vtype | Ptype => -9999999999 <= x <= 99999999999
  | Etype => x = 0 \/ powerRZ 10 (-999) <= Rabs x <= powerRZ 10 998
  end%R.
Definition width (st : style) : nat := match st with Ttype => t_space | _ => d_space end.
Lemma fits_fix k m x : 1 <= m -> (- (powerRZ 10 (Z.of_nat m) - 1) <= x <= powerRZ 10 (Z.of_nat (S m)) - 1)%R ->
  String.length (fix_text k x) <= m + 2 + k.
Proof.
  intros M (L & U). destruct (Rlt_dec x 0) as [N|N].
  - pose proof (fix_length k x m) as F. rewrite Rlt_bool_true in F by exact N. rewrite Rabs_left in F by exact N. specialize (F ltac:(lra) M). lia.
  - pose proof (fix_length k x (S m)) as F. rewrite Rlt_bool_false in F by lra. rewrite Rabs_right in F by lra. specialize (F U ltac:(lia)). lia.
Qed.
Lemma number_fits st x : fits st x -> String.length (number st x) <= width st.
Proof.
  destruct st; cbn [fits number width]; intros H.
  - pose proof (fits_fix 2 6 x ltac:(lia)) as F. unfold t_space. apply F. simpl. lra.
  - now apply sci_length.
  - pose proof (fits_fix 8 10 x ltac:(lia)) as F. unfold d_space. apply F. simpl. lra.
  - pose proof (fits_fix 8 10 x ltac:(lia)) as F. unfold d_space. apply F. simpl. lra.
Qed.

(** * Layout *)
Lemma spaces_length n : String.length (spaces n) = n. Proof. induction n; simpl; congruence. Qed.
Lemma fill_length c n : String.length (fill c n) = n. Proof. induction n; simpl; congruence. Qed.
Lemma center_length w s : String.length s <= w -> String.length (center w s) = w.
Proof.
  intros H. unfold center. rewrite !append_length, !spaces_length.
  pose proof (Nat.div_le_upper_bound (w - String.length s) 2 (w - String.length s)). lia.
Qed.
Lemma separator_length t a b : 1 <= t -> String.length (separator t a b) = t + 1.
Proof. intros H. unfold separator. cbn [String.append String.length]. rewrite append_length, fill_length. cbn [String.length]. lia. Qed.

Definition blank_head (s : string) : Prop := s = "" \/ exists r, s = String " " r.
Lemma split_piece a n b rest : no_space n -> n <> "" -> blank_head rest -> split (spaces a +++ n +++ spaces b +++ rest) = n :: split rest.
Proof.
  intros N E B. destruct b as [|b].
  - cbn [spaces String.append]. destruct B as [->|(r & ->)].
    + rewrite append_nil, split_last by assumption. reflexivity.
    + rewrite split_field by assumption. change (String " " r) with (spaces 1 +++ r). now rewrite split_spaces.
  - change (spaces (S b) +++ rest) with (String " " (spaces b +++ rest)). rewrite split_field by assumption. now rewrite split_spaces.
Qed.
Lemma put_data_shape x st : exists a b, put_data x st = spaces (S a) +++ number st x +++ spaces b.
Proof. unfold put_data, center. eexists _, _. reflexivity. Qed.
Lemma put_data_head x st rest : blank_head (put_data x st +++ rest).
Proof. right. unfold put_data. eexists. reflexivity. Qed.
Lemma split_data x st rest : blank_head rest -> split (put_data x st +++ rest) = number st x :: split rest.
Proof.
  intros B. destruct (put_data_shape x st) as (a & b & ->). rewrite !append_assoc.
  apply split_piece; [apply number_no_space, number_chars|apply number_nonempty|exact B].
Qed.
Lemma split_row l st rest : blank_head rest -> split (concat_map (fun x => put_data x st) l +++ rest) = map (number st) l ++ split rest.
Proof.
  intros B. induction l as [|x l IH]; cbn [concat_map fold_right map app]; [reflexivity|].
  rewrite append_assoc. rewrite split_data; [now f_equal|].
  destruct l as [|y l]; [exact B|]. cbn [concat_map fold_right]. rewrite append_assoc. apply put_data_head.
Qed.
Lemma put_data_length x st : fits st x -> String.length (put_data x st) = width st + 1.
Proof.
  intros F. unfold put_data. rewrite append_length. cbn [String.length]. fold (width st). rewrite center_length by now apply number_fits. lia.
Qed.
Lemma row_length l st : Forall (fits st) l -> String.length (concat_map (fun x => put_data x st) l) = List.length l * (width st + 1).
Proof.
  induction 1 as [|x l F FF IH]; [reflexivity|]. cbn [concat_map fold_right List.length]. rewrite append_length, put_data_length by exact F.
  unfold concat_map in IH. rewrite IH. lia.
Qed.

(** * What is written *)
Lemma cells_row m st i a n row k : nth_error m i = Some row -> List.length row = a + n ->
  cells (Mat m) st i (seq a n) k = put (concat_map (fun x => put_data x st) (skipn a row)) k.
Proof.
  intros E. revert a. induction n as [|n IH]; intros a L; cbn [seq cells].
  - rewrite skipn_all2 by lia. cbn [concat_map fold_right put String.append]. now destruct k.
  - cbn [entry]. rewrite E. destruct (nth_error row a) as [x|] eqn:X; [|apply nth_error_None in X; lia].
    rewrite IH by lia. assert (S : skipn a row = x :: skipn (S a) row).
    { clear -X. revert a X. induction row as [|r row IH]; intros [|a] X; cbn in X |- *; try discriminate; [congruence|]. now apply IH. }
    rewrite S. cbn [concat_map fold_right]. unfold put. cbn [fst snd]. now rewrite append_assoc.
Qed.
Definition row_line (t : R) (xst zst : style) (row : list R) : string :=
  put_data t xst +++ concat_map (fun x => put_data x zst) row +++ " ".
Fixpoint row_lines (x : list R) (xst zst : style) (m : list (list R)) : list string :=
  match x, m with t :: x, r :: m => row_line t xst zst r :: row_lines x xst zst m | _, _ => [] end.
Lemma nl_cons s : " " +++ String newline "" +++ s = " " +++ String newline s. Proof. reflexivity. Qed.
Lemma rows_written x xst zst ny m0 m i last o :
  skipn i m0 = m -> List.length m = List.length x -> Forall (fun r => List.length r = ny) m ->
  rows x xst zst ny (Mat m0) i (last, o) = (join_lines (row_lines x xst zst m ++ [last]), o).
Proof.
  revert m i. induction x as [|t x IH]; intros m i E L F; destruct m as [|r m]; try discriminate L; cbn [rows row_lines app join_lines]; [reflexivity|].
  inversion F as [|? ? Fr Fm]; subst.
  assert (X : nth_error m0 i = Some r).
  { rewrite <- (firstn_skipn i m0) at 1. assert (i <= List.length m0).
    { destruct (Nat.le_gt_cases i (List.length m0)); [assumption|]. rewrite skipn_all2 in E by lia. discriminate. }
    rewrite nth_error_app2; rewrite firstn_length_le by assumption; [|lia]. rewrite Nat.sub_diag, E. reflexivity. }
  assert (Y : skipn (S i) m0 = m).
  { clear -E. revert i E. induction m0 as [|a m0 IH]; intros [|i] E; cbn in E |- *; try discriminate; [congruence|now apply IH]. }
  rewrite (cells_row m0 zst i 0 (List.length r) r) by (assumption || reflexivity).
  rewrite (IH m (S i) Y) by (cbn in L; congruence || assumption). cbn [skipn]. unfold put, newrow, row_line. cbn [fst snd].
  destruct (row_lines x xst zst m ++ [last]) as [|q qs] eqn:Q; [now apply app_eq_nil in Q as (_ & Q)|].
  f_equal. rewrite !append_assoc. reflexivity.
Qed.

Definition frame (types : string -> option kind) (adim : bool) xunit y yunit zunit kz kx ky (rs : list string) : list string :=
  let (totw, dataw) := calc_space (List.length y) in
  [file_header; ""; desc kz; unit_line adim zunit; ""; separator totw "+" "-";
   header dataw (label kx xunit) (label ky yunit);
   put_blank +++ concat_map (fun p => put_data p (numstyle ky)) y +++ " ";
   separator totw "+" "="] ++ rs ++ [separator totw "+" "="].
Lemma join_cons a b l : join_lines (a :: b :: l) = a +++ String newline (join_lines (b :: l)). Proof. reflexivity. Qed.
Lemma write_written types adim x xname xunit y yname yunit m zname zunit kz kx ky :
  types zname = Some kz -> types xname = Some kx -> types yname = Some ky -> y <> [] ->
  List.length m = List.length x -> Forall (fun r => List.length r = List.length y) m ->
  write types adim x xname xunit y yname yunit (Mat m) zname zunit =
    (join_lines (frame types adim xunit y yunit zunit kz kx ky (row_lines x (numstyle kx) (numstyle kz) m)), Done).
Proof.
  intros Z X Y N L F. unfold write, frame. destruct (calc_space (List.length y)) as [totw dataw]. rewrite Z, X, Y.
  destruct y as [|y0 y]; [contradiction|]. rewrite (rows_written x _ _ _ m m 0) by (reflexivity || assumption).
  unfold put, nl, newrow. cbn [fst snd app].
  set (rest := row_lines x (numstyle kx) (numstyle kz) m ++ [separator totw "+" "="]).
  assert (R : exists a l, rest = a :: l). { destruct rest as [|a l] eqn:Q; [now apply app_eq_nil in Q as (_ & Q)|eauto]. }
  destruct R as (a & l & ->). rewrite !join_cons. f_equal. rewrite !append_assoc. reflexivity.
Qed.

(** No line contains a newline. *)
Lemma no_newline_app a b : no_newline a -> no_newline b -> no_newline (a +++ b).
Proof. unfold no_newline. intros. rewrite all_chars_app. now apply andb_true_intro. Qed.
Lemma no_newline_spaces n : no_newline (spaces n). Proof. induction n; [reflexivity|exact IHn]. Qed.
Lemma no_newline_fill c n : Ascii.eqb c newline = false -> no_newline (fill c n).
Proof. intros H. induction n; [reflexivity|]. unfold no_newline. cbn [fill all_chars]. rewrite H. exact IHn. Qed.
Lemma no_newline_center w s : no_newline s -> no_newline (center w s).
Proof. intros. unfold center. repeat apply no_newline_app; try apply no_newline_spaces; assumption. Qed.
Lemma no_newline_number st x : no_newline (number st x).
Proof. apply (number_imp (fun a => negb (Ascii.eqb a newline))); [|apply number_chars]. apply ascii_cases. vm_compute. reflexivity. Qed.
Lemma no_newline_data x st : no_newline (put_data x st).
Proof. unfold put_data. apply no_newline_app; [reflexivity|]. apply no_newline_center, no_newline_number. Qed.
Lemma no_newline_cells l st : no_newline (concat_map (fun x => put_data x st) l).
Proof. induction l as [|x l IH]; [reflexivity|]. cbn [concat_map fold_right]. apply no_newline_app; [apply no_newline_data|exact IH]. Qed.
Lemma no_newline_separator t c : Ascii.eqb c newline = false -> no_newline (separator t "+" c).
Proof. intros H. unfold separator. change (String "+" (fill c (t - 1))) with ("+" +++ fill c (t - 1)). repeat apply no_newline_app; try reflexivity. now apply no_newline_fill. Qed.
Lemma no_newline_row t xst zst r : no_newline (row_line t xst zst r).
Proof. unfold row_line. apply no_newline_app; [apply no_newline_data|]. apply no_newline_app; [apply no_newline_cells|reflexivity]. Qed.
Lemma no_newline_rows x xst zst m : Forall no_newline (row_lines x xst zst m).
Proof. revert m. induction x as [|t x IH]; intros [|r m]; cbn [row_lines]; constructor; [apply no_newline_row|apply IH]. Qed.
Lemma no_newline_unit adim u : no_newline u -> no_newline (unit_line adim u).
Proof. intros H. unfold unit_line. destruct (adim && String.eqb u "")%bool; [reflexivity|]. repeat apply no_newline_app; try reflexivity. exact H. Qed.
Lemma frame_lines types adim xunit y yunit zunit kz kx ky rs :
  Forall no_newline rs -> no_newline zunit -> no_newline (desc kz) -> no_newline (label kx xunit) -> no_newline (label ky yunit) ->
  lines (join_lines (frame types adim xunit y yunit zunit kz kx ky rs)) = frame types adim xunit y yunit zunit kz kx ky rs.
Proof.
  intros Hr Hz Hd Hx Hy. apply lines_join; unfold frame; destruct (calc_space (List.length y)) as [totw dataw]; [|discriminate].
  apply Forall_app. split; [|apply Forall_app; split; [exact Hr|constructor; [now apply no_newline_separator|constructor]]].
  repeat match goal with |- Forall _ (_ :: _) => constructor | |- Forall _ [] => constructor end; try reflexivity;
    try (now apply no_newline_separator); try (now apply no_newline_unit); try assumption.
  - unfold header. apply no_newline_app; [reflexivity|]. apply no_newline_app; [now apply no_newline_center|]. apply no_newline_app; [reflexivity|]. apply no_newline_app; [now apply no_newline_center|reflexivity].
  - apply no_newline_app; [reflexivity|]. apply no_newline_app; [apply no_newline_cells|reflexivity].
Qed.

(** The kinds of table. *)
Lemma qha_kind name k : qha_types name = Some k -> no_newline (desc k).
Proof. unfold qha_types. repeat match goal with |- context [String.eqb name ?s] => destruct (String.eqb name s) end; intros [= <-]; reflexivity. Qed.
Lemma ha_kind name k : ha_types name = Some k -> no_newline (desc k).
Proof. unfold ha_types. repeat match goal with |- context [String.eqb name ?s] => destruct (String.eqb name s) end; intros [= <-]; reflexivity. Qed.
Lemma no_newline_label a b u : no_newline a -> no_newline b -> no_newline u -> no_newline (labelled a b u).
Proof. intros. unfold labelled. repeat apply no_newline_app; assumption. Qed.
