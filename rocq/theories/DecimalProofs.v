(** Facts about decimal text: what is printed is read back. *)
From Coq Require Import Reals String Ascii List Bool Arith ZArith NArith Lia Lra.
From Verif Require Import Py DecimalModel.
Import ListNotations.
Open Scope string_scope.

#[global] Arguments is_digit : simpl never.
#[global] Arguments digit_value : simpl never.
#[global] Arguments digit_char : simpl never.
#[global] Arguments is_space : simpl never.
#[global] Arguments lower_ascii : simpl never.
#[global] Arguments newline : simpl never.
#[global] Arguments N.div : simpl never.
#[global] Arguments N.modulo : simpl never.
Lemma append_nil s : s ++ "" = s. Proof. induction s; simpl; congruence. Qed.
Lemma append_assoc a b c : (a ++ b) ++ c = a ++ (b ++ c).
Proof. induction a; simpl; congruence. Qed.
Lemma append_length a b : String.length (a ++ b) = (String.length a + String.length b)%nat.
Proof. induction a; simpl; congruence. Qed.
Fixpoint all_chars (P : ascii -> bool) (s : string) : bool :=
  match s with String a r => P a && all_chars P r | EmptyString => true end.
Lemma all_chars_app P a b : all_chars P (a ++ b) = (all_chars P a && all_chars P b)%bool.
Proof. induction a; simpl; [reflexivity|]. rewrite IHa. now rewrite andb_assoc. Qed.
Lemma digit_char_ok d : (d < 10)%N -> is_digit (digit_char d) = true /\ digit_value (digit_char d) = d.
Proof.
  intros H. unfold is_digit, digit_value, digit_char.
  rewrite nat_ascii_embedding by lia. split; [|lia].
  apply andb_true_intro; split; apply Nat.leb_le; lia.
Qed.
Lemma fixed_digits k n : all_chars is_digit (fixed k n) = true.
Proof.
  revert n; induction k; intros n; simpl; [reflexivity|]. rewrite all_chars_app, IHk. cbn [all_chars andb].
  rewrite (proj1 (digit_char_ok _ (N.mod_lt n 10 ltac:(lia)))). reflexivity.
Qed.
Lemma fixed_length k n : String.length (fixed k n) = k.
Proof. revert n; induction k; intros n; simpl; [reflexivity|]. rewrite append_length, IHk. simpl. lia. Qed.
Lemma digits_from_app acc a b : digits_from acc (a ++ b) = digits_from (digits_from acc a) b.
Proof. revert acc; induction a; intros acc; simpl; [reflexivity|apply IHa]. Qed.
Lemma digits_from_fixed acc k n : digits_from acc (fixed k n) = (acc * 10 ^ N.of_nat k + n mod 10 ^ N.of_nat k)%N.
Proof.
  revert acc n; induction k; intros acc n.
  - simpl. rewrite N.mod_1_r. lia.
  - cbn [fixed]. rewrite digits_from_app, IHk. cbn [digits_from].
    rewrite (proj2 (digit_char_ok _ (N.mod_lt n 10 ltac:(lia)))).
    rewrite Nat2N.inj_succ, N.pow_succ_r'. rewrite (N.mod_mul_r n 10) by (try lia; apply N.pow_nonzero; lia). ring.
Qed.
Lemma ndigits_bound f n : (n < 2 ^ N.of_nat f)%N -> (n < 10 ^ N.of_nat (ndigits f n))%N.
Proof.
  revert n; induction f; intros n H; cbn [ndigits].
  - simpl in *. lia.
  - destruct (N.ltb_spec n 10) as [L|L]; [simpl; lia|].
    rewrite Nat2N.inj_succ, N.pow_succ_r' in *.
    assert (n / 10 < 2 ^ N.of_nat f)%N.
    { apply N.div_lt_upper_bound; lia. }
    specialize (IHf _ H0). 
    pose proof (N.div_mod n 10 ltac:(lia)). pose proof (N.mod_lt n 10 ltac:(lia)).
    set (B := (10 ^ N.of_nat (ndigits f (n / 10)))%N) in *. nia.
Qed.
Lemma size_bound n : (n < 2 ^ N.of_nat (N.size_nat n))%N.
Proof.
  destruct n as [|p]; [simpl; lia|]. pose proof (N.size_gt (N.pos p)) as G.
  replace (N.of_nat (N.size_nat (N.pos p))) with (N.size (N.pos p)); [exact G|].
  cbn [N.size N.size_nat]. clear G. induction p; cbn [Pos.size Pos.size_nat]; [| |reflexivity]; rewrite Nat2N.inj_succ, <- IHp; lia.
Qed.
Lemma print_nat_digits n : all_chars is_digit (print_nat n) = true.
Proof. apply fixed_digits. Qed.
Lemma print_nat_value acc n : digits_from acc (print_nat n) = (acc * 10 ^ N.of_nat (String.length (print_nat n)) + n)%N.
Proof.
  unfold print_nat. rewrite digits_from_fixed, fixed_length. rewrite N.mod_small; [reflexivity|].
  apply ndigits_bound, size_bound.
Qed.
Lemma ndigits_pos f n : (1 <= ndigits f n)%nat.
Proof. destruct f; simpl; [lia|]. destruct (n <? 10)%N; lia. Qed.
Lemma print_nat_nonempty n : print_nat n <> "".
Proof.
  intros E. apply (f_equal String.length) in E. unfold print_nat in E. rewrite fixed_length in E.
  pose proof (ndigits_pos (N.size_nat n) n). simpl in E. lia.
Qed.
Lemma take_digits_app a b : all_chars is_digit a = true ->
  (match b with String c _ => is_digit c = false | EmptyString => True end) -> take_digits (a ++ b) = (a, b).
Proof.
  induction a as [|c a IH]; simpl; intros H Hb.
  - destruct b as [|c r]; [reflexivity|]. simpl. now rewrite Hb.
  - apply andb_prop in H. destruct H as (Hc & Ha). rewrite Hc, (IH Ha Hb). reflexivity.
Qed.
Lemma take_digits_all a : all_chars is_digit a = true -> take_digits a = (a, "").
Proof. intros H. rewrite <- (append_nil a) at 1. now apply take_digits_app. Qed.
Definition sign_text (neg : bool) : string := if neg then "-" else "".
Lemma digit_not_sign a : is_digit a = true -> Ascii.eqb a "-" = false /\ Ascii.eqb a "+" = false /\ Ascii.eqb a "." = false /\ is_space a = false.
Proof.
  intros H. unfold is_digit in H. apply andb_prop in H. destruct H as (A & B). apply Nat.leb_le in A, B.
  repeat split; try (apply Ascii.eqb_neq; intros E; subst a; compute in A, B; lia).
  unfold is_space. apply orb_false_intro; apply andb_false_iff; [right|right]; apply Nat.leb_gt; lia.
Qed.
Lemma take_sign_digits neg a s : is_digit a = true -> take_sign (sign_text neg ++ String a s) = (neg, String a s).
Proof.
  intros H. destruct (digit_not_sign a H) as (A & B & _). destruct neg; simpl; [reflexivity|]. now rewrite A, B.
Qed.
Lemma lower_head a s : lower (String a s) = String (lower_ascii a) (lower s). Proof. reflexivity. Qed.
Lemma digit_not_nan a s : is_digit a = true -> String.eqb (lower (String a s)) "nan" = false.
Proof.
  intros H. apply String.eqb_neq. rewrite lower_head. intros E. injection E as E _.
  unfold lower_ascii in E. unfold is_digit in H. apply andb_prop in H. destruct H as (A & B). apply Nat.leb_le in A, B.
  destruct ((65 <=? nat_of_ascii a)%nat && (nat_of_ascii a <=? 90)%nat)%bool eqn:D.
  - apply andb_prop in D. destruct D as (D & _). apply Nat.leb_le in D. lia.
  - subst a. compute in B. lia.
Qed.

(** Printing n/10^k with a sign and reading it gives +-n/10^k. *)
Theorem print_parse neg k n : (1 <= k)%nat ->
  parse_float (sign_text neg ++ print_fixed k n) =
  Some (Num ((if neg then -1 else 1) * IZR (Z.of_N n) * powerRZ 10 (- Z.of_nat k))).
Proof.
  intros Hk. unfold print_fixed. set (b := (10 ^ N.of_nat k)%N). set (q := (n / b)%N). set (r := (n mod b)%N).
  pose proof (print_nat_digits q) as Dq. pose proof (print_nat_nonempty q) as Nq. pose proof (print_nat_value 0 q) as Vq.
  destruct (print_nat q) as [|a s] eqn:P; [contradiction|].
  pose proof Dq as Da. simpl in Da. apply andb_prop in Da. destruct Da as (Da & Ds).
  unfold parse_float.
  change (String a s ++ "." ++ fixed k r) with (String a (s ++ "." ++ fixed k r)).
  rewrite take_sign_digits by exact Da. rewrite digit_not_nan by exact Da.
  change (String a (s ++ "." ++ fixed k r)) with (String a s ++ "." ++ fixed k r).
  rewrite take_digits_app by (exact Dq || reflexivity).
  change ("." ++ fixed k r) with (String "." (fixed k r)). cbv iota. rewrite Ascii.eqb_refl.
  rewrite take_digits_all by apply fixed_digits.
  change (String a s ++ fixed k r) with (String a (s ++ fixed k r)). cbv iota.
  change (String a (s ++ fixed k r)) with (String a s ++ fixed k r).
  unfold literal. f_equal. f_equal. rewrite fixed_length.
  replace (0 - Z.of_nat k)%Z with (- Z.of_nat k)%Z by lia.
  f_equal. f_equal. f_equal. f_equal. unfold digits. rewrite digits_from_app, Vq, digits_from_fixed.
  fold b. unfold r, q. rewrite N.mod_mod by (unfold b; apply N.pow_nonzero; lia).
  pose proof (N.div_mod n b ltac:(unfold b; apply N.pow_nonzero; lia)). lia.
Qed.
Lemma print_fixed_nonspace k n : all_chars (fun a => negb (is_space a)) (print_fixed k n) = true.
Proof.
  assert (X : forall s, all_chars is_digit s = true -> all_chars (fun a => negb (is_space a)) s = true).
  { induction s as [|a s IH]; simpl; [reflexivity|]. intros H. apply andb_prop in H. destruct H as (A & B).
    destruct (digit_not_sign a A) as (_ & _ & _ & E). rewrite E, IH by exact B. reflexivity. }
  unfold print_fixed. rewrite all_chars_app. rewrite X by apply print_nat_digits. simpl. apply X, fixed_digits.
Qed.

(** ** split on space-separated fields *)
Definition no_space (s : string) := all_chars (fun a => negb (is_space a)) s = true.
Lemma split_aux_word w cur s : no_space w -> split_aux cur (w ++ s) = split_aux (cur ++ w) s.
Proof.
  revert cur; induction w as [|a w IH]; intros cur H; simpl; [now rewrite append_nil|].
  unfold no_space in H. simpl in H. apply andb_prop in H. destruct H as (A & B). apply negb_true_iff in A. rewrite A.
  rewrite IH by exact B. rewrite append_assoc. reflexivity.
Qed.
Lemma split_spaces k s : split (spaces k ++ s) = split s.
Proof. unfold split. induction k; simpl; [reflexivity|exact IHk]. Qed.
Lemma split_field k w s : no_space w -> w <> "" -> split (spaces k ++ w ++ String " " s) = w :: split s.
Proof.
  intros H N. rewrite split_spaces. unfold split. rewrite split_aux_word by exact H. simpl.
  destruct w; [contradiction|]. reflexivity.
Qed.
Lemma split_last k w : no_space w -> w <> "" -> split (spaces k ++ w) = [w].
Proof.
  intros H N. rewrite split_spaces. unfold split. rewrite <- (append_nil w) at 1. rewrite split_aux_word by exact H. simpl.
  destruct w; [contradiction|]. reflexivity.
Qed.
(** ** readlines of joined lines *)
Definition no_newline (s : string) := all_chars (fun a => negb (Ascii.eqb a newline)) s = true.
Lemma readlines_aux_line w cur s : no_newline w -> readlines_aux cur (w ++ s) = readlines_aux (cur ++ w) s.
Proof.
  revert cur; induction w as [|a w IH]; intros cur H; simpl; [now rewrite append_nil|].
  unfold no_newline in H. simpl in H. apply andb_prop in H. destruct H as (A & B). apply negb_true_iff in A. rewrite A.
  rewrite IH by exact B. rewrite append_assoc. reflexivity.
Qed.
Fixpoint with_newlines (l : list string) : list string :=
  match l with [] => [] | [x] => [x] | x :: r => (x ++ String newline "") :: with_newlines r end.
Lemma readlines_join l : Forall no_newline l -> l <> [] -> last l "" <> "" -> readlines (join_lines l) = with_newlines l.
Proof.
  unfold readlines. induction l as [|x r IH]; intros F N L; [contradiction|].
  inversion F as [|? ? Fx Fr]; subst. destruct r as [|y r].
  - simpl in *. rewrite <- (append_nil x) at 1. rewrite readlines_aux_line by exact Fx. simpl. destruct x; [contradiction|reflexivity].
  - change (join_lines (x :: y :: r)) with (x ++ String newline (join_lines (y :: r))).
    rewrite readlines_aux_line by exact Fx. cbn [readlines_aux append]. rewrite Ascii.eqb_refl.
    change (with_newlines (x :: y :: r)) with ((x ++ String newline "") :: with_newlines (y :: r)). f_equal.
    apply IH; [exact Fr|discriminate|exact L].
Qed.
