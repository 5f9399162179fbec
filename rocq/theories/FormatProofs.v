(** Printed numbers: how they are read and how far they are from the value. *)
From Coq Require Import Reals String Ascii List Bool Arith ZArith NArith Lia Lra.
From Flocq Require Import Core.
From Verif Require Import Py DecimalModel DecimalProofs QhaReaderModel FormatModel YamlSpec.
Import ListNotations.
Open Scope string_scope.
Open Scope list_scope.
Open Scope nat_scope.

(** v is x rounded to k decimals. *)
Definition rounded (k : nat) (x v : R) : Prop :=
  (exists z : Z, v = IZR z * powerRZ 10 (- Z.of_nat k))%R /\ (Rabs (v - x) <= / 2 * powerRZ 10 (- Z.of_nat k))%R.
(** v is x rounded to k + 1 significant digits (relative error). *)
Definition rounded_sig (k : nat) (x v : R) : Prop :=
  (exists (z e : Z), v = IZR z * powerRZ 10 (e - Z.of_nat k) /\ (Z.abs z < 10 ^ (Z.of_nat k + 1))%Z)%R /\
  (Rabs (v - x) <= / 2 * powerRZ 10 (- Z.of_nat k) * Rabs x)%R.

Definition sgn (x : R) : R := if Rlt_bool x 0 then (-1)%R else 1%R.
Definition fix_value (k : nat) (x : R) : R := (sgn x * IZR (Z.of_N (scaled k x)) * powerRZ 10 (- Z.of_nat k))%R.
Definition sci_value (k : nat) (x : R) : R :=
  (sgn x * IZR (Z.of_N (fst (sci_parts k x))) * powerRZ 10 (snd (sci_parts k x) - Z.of_nat k))%R.

Lemma p10 e : (0 < powerRZ 10 e)%R. Proof. apply powerRZ_lt. lra. Qed.
Lemma p10_inv e : (powerRZ 10 e * powerRZ 10 (- e) = 1)%R.
Proof. rewrite <- powerRZ_add by lra. replace (e + - e)%Z with 0%Z by lia. reflexivity. Qed.
Lemma sgn_abs x : (sgn x * Rabs x = x)%R.
Proof. unfold sgn. destruct (Rlt_bool_spec x 0); [rewrite Rabs_left|rewrite Rabs_right]; lra. Qed.
Lemma sgn_1 x : Rabs (sgn x) = 1%R.
Proof. unfold sgn. destruct (Rlt_bool x 0); [rewrite Rabs_left|rewrite Rabs_right]; lra. Qed.
Lemma nearest_nonneg x : (0 <= x)%R -> (0 <= ZnearestE x)%Z.
Proof.
  intros H. apply Z.le_trans with (Zfloor x); [|apply Znearest_ge_floor]. apply Zfloor_lub. simpl. lra.
Qed.
Lemma to_N_nearest x : (0 <= x)%R -> IZR (Z.of_N (Z.to_N (ZnearestE x))) = IZR (ZnearestE x).
Proof. intros H. rewrite Z2N.id; [reflexivity|now apply nearest_nonneg]. Qed.

Lemma fix_rounded k x : rounded k x (fix_value k x).
Proof.
  assert (P := p10 (Z.of_nat k)). assert (I := p10_inv (Z.of_nat k)). assert (Q := p10 (- Z.of_nat k)). split.
  - exists ((if Rlt_bool x 0 then -1 else 1) * Z.of_N (scaled k x))%Z. unfold fix_value, sgn. rewrite mult_IZR. destruct (Rlt_bool x 0); simpl; ring.
  - unfold fix_value, scaled. rewrite to_N_nearest by (apply Rmult_le_pos; [apply Rabs_pos|lra]).
    set (y := (Rabs x * powerRZ 10 (Z.of_nat k))%R).
    replace (sgn x * IZR (ZnearestE y) * powerRZ 10 (- Z.of_nat k) - x)%R with (sgn x * powerRZ 10 (- Z.of_nat k) * (IZR (ZnearestE y) - y))%R.
    + rewrite !Rabs_mult, sgn_1, (Rabs_right (powerRZ 10 _)) by lra. rewrite Rmult_1_l, (Rmult_comm (/ 2)). apply Rmult_le_compat_l; [lra|].
      rewrite Rabs_minus_sym. apply Znearest_half.
    + transitivity (sgn x * IZR (ZnearestE y) * powerRZ 10 (- Z.of_nat k) - sgn x * Rabs x * (powerRZ 10 (Z.of_nat k) * powerRZ 10 (- Z.of_nat k)))%R; [unfold y; ring|].
      rewrite I, Rmult_1_r, sgn_abs. reflexivity.
Qed.
Lemma exponent_bounds x : x <> 0%R -> (powerRZ 10 (exponent x) <= Rabs x < powerRZ 10 (exponent x + 1))%R.
Proof.
  intros H. unfold exponent. destruct (mag radix10 x) as (e & E). simpl. specialize (E H).
  rewrite !bpow_powerRZ in E. replace (e - 1 + 1)%Z with e by lia. exact E.
Qed.
Lemma nat_pow10 k : IZR (Z.of_N (10 ^ N.of_nat k)) = powerRZ 10 (Z.of_nat k).
Proof.
  rewrite N2Z.inj_pow, nat_N_Z. change (Z.of_N 10) with 10%Z. rewrite <- pow_IZR, pow_powerRZ. reflexivity.
Qed.
Lemma nearest_le_int x z : (x <= IZR z)%R -> (ZnearestE x <= z)%Z.
Proof. intros H. apply Z.le_trans with (Zceil x); [apply Znearest_le_ceil|now apply Zceil_glb]. Qed.
Lemma sci_rounded k x : rounded_sig k x (sci_value k x).
Proof.
  unfold rounded_sig, sci_value, sci_parts.
  destruct (Req_bool_spec x 0) as [->|H].
  { cbn [fst snd]. split.
    - exists 0%Z, 0%Z. simpl Z.of_N. split; [ring|]. simpl. apply Z.pow_pos_nonneg; lia.
    - simpl Z.of_N. rewrite Rmult_0_r, Rmult_0_l, Rminus_0_r, Rabs_R0. lra. }
  pose proof (exponent_bounds x H) as (L & U). set (e := exponent x) in *.
  set (y := (Rabs x * powerRZ 10 (Z.of_nat k - e))%R).
  assert (Y : (powerRZ 10 (Z.of_nat k) <= y < powerRZ 10 (Z.of_nat k + 1))%R).
  { unfold y. assert (P := p10 (Z.of_nat k - e)). split.
    - replace (Z.of_nat k) with (e + (Z.of_nat k - e))%Z at 1 by lia. rewrite powerRZ_add by lra. apply Rmult_le_compat_r; lra.
    - replace (Z.of_nat k + 1)%Z with ((e + 1) + (Z.of_nat k - e))%Z by lia. rewrite (powerRZ_add _ (e + 1)) by lra. apply Rmult_lt_compat_r; lra. }
  assert (Y0 : (0 <= y)%R) by (pose proof (p10 (Z.of_nat k)); lra).
  assert (M : (ZnearestE y <= 10 ^ (Z.of_nat k + 1))%Z).
  { apply nearest_le_int. rewrite <- (Z2Nat.id (Z.of_nat k + 1)) by lia. rewrite <- pow_IZR, pow_powerRZ. rewrite Z2Nat.id by lia. lra. }
  assert (E : (Rabs (sgn x * IZR (ZnearestE y) * powerRZ 10 (e - Z.of_nat k) - x) <= / 2 * powerRZ 10 (- Z.of_nat k) * Rabs x)%R).
  { assert (P := p10 (e - Z.of_nat k)).
    assert (I : (powerRZ 10 (Z.of_nat k - e) * powerRZ 10 (e - Z.of_nat k) = 1)%R).
    { replace (e - Z.of_nat k)%Z with (- (Z.of_nat k - e))%Z by lia. apply p10_inv. }
    replace (sgn x * IZR (ZnearestE y) * powerRZ 10 (e - Z.of_nat k) - x)%R with (sgn x * powerRZ 10 (e - Z.of_nat k) * (IZR (ZnearestE y) - y))%R.
    - rewrite !Rabs_mult, sgn_1, (Rabs_right (powerRZ 10 _)) by lra. rewrite Rmult_1_l.
      apply Rle_trans with (powerRZ 10 (e - Z.of_nat k) * / 2)%R.
      + apply Rmult_le_compat_l; [lra|]. rewrite Rabs_minus_sym. apply Znearest_half.
      + replace (e - Z.of_nat k)%Z with (- Z.of_nat k + e)%Z by lia. rewrite powerRZ_add by lra.
        pose proof (p10 (- Z.of_nat k)). rewrite Rmult_comm, <- Rmult_assoc. apply Rmult_le_compat_l; [|exact L]. apply Rmult_le_pos; lra.
    - transitivity (sgn x * IZR (ZnearestE y) * powerRZ 10 (e - Z.of_nat k) - sgn x * Rabs x * (powerRZ 10 (Z.of_nat k - e) * powerRZ 10 (e - Z.of_nat k)))%R; [unfold y; ring|].
      rewrite I, Rmult_1_r, sgn_abs. reflexivity. }
  assert (S10 : Z.of_N (10 ^ N.of_nat (S k)) = (10 ^ (Z.of_nat k + 1))%Z).
  { rewrite N2Z.inj_pow, nat_N_Z. f_equal. lia. }
  destruct (N.eqb_spec (Z.to_N (ZnearestE y)) (10 ^ N.of_nat (S k))) as [C|C]; cbn [fst snd].
  - assert (Zy : ZnearestE y = (10 ^ (Z.of_nat k + 1))%Z).
    { rewrite <- (Z2N.id (ZnearestE y)) by now apply nearest_nonneg. rewrite C. exact S10. }
    assert (V : (sgn x * IZR (Z.of_N (10 ^ N.of_nat k)) * powerRZ 10 (e + 1 - Z.of_nat k) = sgn x * IZR (ZnearestE y) * powerRZ 10 (e - Z.of_nat k))%R).
    { rewrite nat_pow10, Zy. rewrite <- (Z2Nat.id (Z.of_nat k + 1)) by lia. rewrite <- pow_IZR, pow_powerRZ. rewrite Z2Nat.id by lia.
      rewrite !Rmult_assoc, <- !powerRZ_add by lra. f_equal. f_equal. lia. }
    split.
    + exists ((if Rlt_bool x 0 then -1 else 1) * 10 ^ Z.of_nat k)%Z, (e + 1)%Z. split.
      * rewrite mult_IZR. f_equal. f_equal; [unfold sgn; now destruct (Rlt_bool x 0)|]. f_equal. rewrite N2Z.inj_pow, nat_N_Z. reflexivity.
      * rewrite Z.pow_add_r by lia. assert (0 < 10 ^ Z.of_nat k)%Z by (apply Z.pow_pos_nonneg; lia). destruct (Rlt_bool x 0); lia.
    + rewrite V. exact E.
  - split.
    + exists ((if Rlt_bool x 0 then -1 else 1) * ZnearestE y)%Z, e. split.
      * rewrite mult_IZR, to_N_nearest by exact Y0. f_equal. f_equal. unfold sgn. now destruct (Rlt_bool x 0).
      * pose proof (nearest_nonneg y Y0). assert (ZnearestE y <> (10 ^ (Z.of_nat k + 1))%Z).
        { intros Q. apply C. rewrite Q, <- S10. apply N2Z.id. }
        destruct (Rlt_bool x 0); lia.
    + rewrite to_N_nearest by exact Y0. exact E.
Qed.

(** ** Reading the printed text *)
Lemma minus_or_sign neg : minus_or "" neg = sign_text neg. Proof. reflexivity. Qed.
Lemma parse_fix k x : 1 <= k -> parse_float (fix_text k x) = Some (Num (fix_value k x)).
Proof. intros H. unfold fix_text. rewrite minus_or_sign, print_parse by exact H. reflexivity. Qed.
Notation "a +++ b" := (String.append a b) (at level 60, right associativity).
Lemma digits_head n : exists a s, print_nat n = String a s /\ is_digit a = true /\ all_chars is_digit s = true.
Proof.
  pose proof (print_nat_digits n) as D. pose proof (print_nat_nonempty n) as N. destruct (print_nat n) as [|a s]; [contradiction|].
  simpl in D. apply andb_prop in D. exists a, s. tauto.
Qed.
Lemma take_sign_number neg n s : take_sign (sign_text neg +++ print_nat n +++ s) = (neg, print_nat n +++ s).
Proof. destruct (digits_head n) as (a & r & -> & D & _). apply take_sign_digits. exact D. Qed.
Lemma take_number n s : (match s with String c _ => is_digit c = false | EmptyString => True end) -> take_digits (print_nat n +++ s) = (print_nat n, s).
Proof. intros H. apply take_digits_app; [apply print_nat_digits|exact H]. Qed.

(** Text after the decimals of a fixed-point number: nothing, or an exponent. *)
Definition exp_part (e : option (bool * N)) : string :=
  match e with None => EmptyString | Some (neg, n) => "E" +++ (if neg then "-" else "+") +++ print_nat n end.
Definition exp_part2 (e : option (bool * string)) : string :=
  match e with None => EmptyString | Some (neg, d) => "E" +++ (if neg then "-" else "+") +++ d end.
Definition ok_exp (e : option (bool * string)) : Prop := match e with None => True | Some (_, d) => all_chars is_digit d = true /\ d <> "" end.
Definition exp_value (e : option (bool * string)) : Z :=
  match e with None => 0%Z | Some (neg, d) => if neg then (- Z.of_N (digits d))%Z else Z.of_N (digits d) end.
Lemma exp_head e : match exp_part2 e with String c _ => is_digit c = false | EmptyString => True end.
Proof. destruct e as [(neg, d)|]; [reflexivity|exact I]. Qed.
Lemma sign_digits (neg : bool) d : all_chars is_digit d = true -> d <> "" -> take_sign ((if neg then "-" else "+") +++ d) = (neg, d).
Proof. intros _ _. destruct neg; reflexivity. Qed.
Lemma parse_number neg k n e : 1 <= k -> ok_exp e ->
  parse_float (sign_text neg +++ print_fixed k n +++ exp_part2 e) =
  Some (Num ((if neg then -1 else 1) * IZR (Z.of_N n) * powerRZ 10 (exp_value e - Z.of_nat k))).
Proof.
  intros Hk He. unfold print_fixed. set (b := (10 ^ N.of_nat k)%N). set (q := (n / b)%N). set (r := (n mod b)%N).
  rewrite !append_assoc. unfold parse_float. rewrite take_sign_number.
  assert (NN : String.eqb (lower (print_nat q +++ "." +++ fixed k r +++ exp_part2 e)) "nan" = false).
  { destruct (digits_head q) as (a & s & -> & D & _). apply digit_not_nan. exact D. }
  rewrite NN. rewrite take_number by reflexivity.
  change ("." +++ fixed k r +++ exp_part2 e) with (String "." (fixed k r +++ exp_part2 e)). cbv iota. rewrite Ascii.eqb_refl.
  rewrite take_digits_app by (apply fixed_digits || apply exp_head).
  assert (V : forall x, literal neg (print_nat q) (fixed k r) x = Num ((if neg then -1 else 1) * IZR (Z.of_N n) * powerRZ 10 (x - Z.of_nat k))).
  { intros x. unfold literal. rewrite fixed_length. f_equal. f_equal. f_equal. f_equal. f_equal. unfold digits.
    rewrite digits_from_app, (print_nat_value 0), digits_from_fixed. fold b. unfold r, q.
    rewrite N.mod_mod by (unfold b; apply N.pow_nonzero; lia).
    pose proof (N.div_mod n b ltac:(unfold b; apply N.pow_nonzero; lia)). lia. }
  assert (NE : exists c t, print_nat q +++ fixed k r = String c t).
  { destruct (digits_head q) as (a & s & -> & _). now exists a, (s +++ fixed k r). }
  destruct NE as (c & t & NE). rewrite NE. cbv iota.
  destruct e as [(eneg, d)|]; cbn [exp_part2].
  - destruct He as (Hd & Hn). change ("E" +++ (if eneg then "-" else "+") +++ d) with (String "E" ((if eneg then "-" else "+") +++ d)). cbv iota.
    change (Ascii.eqb (lower_ascii "E") "e") with true. cbv iota. rewrite sign_digits by assumption.
    rewrite take_digits_all by exact Hd. destruct d as [|d0 d1]; [contradiction|]. cbv iota. rewrite V. reflexivity.
  - rewrite V. reflexivity.
Qed.
Lemma float_form_number neg k n e : ok_exp e -> float_form (sign_text neg +++ print_fixed k n +++ exp_part2 e) = true.
Proof.
  intros He. unfold print_fixed. set (q := (n / _)%N). set (r := (n mod _)%N). rewrite !append_assoc.
  unfold float_form. rewrite take_sign_number, take_number by reflexivity.
  destruct (digits_head q) as (a & s & -> & _).
  change ("." +++ fixed k r +++ exp_part2 e) with (String "." (fixed k r +++ exp_part2 e)). cbv iota. rewrite Ascii.eqb_refl.
  rewrite take_digits_app by (apply fixed_digits || apply exp_head). cbn [snd andb].
  destruct e as [(eneg, d)|]; [|reflexivity]. destruct He as (Hd & Hn). destruct eneg; cbn [exp_part2 append].
  all: change (Ascii.eqb (lower_ascii "E") "e") with true; cbn [andb]; unfold all_digits; rewrite take_digits_all by exact Hd; destruct d; [contradiction|reflexivity].
Qed.
Lemma int_scalar_number neg k n e : int_scalar (sign_text neg +++ print_fixed k n +++ exp_part2 e) = None.
Proof.
  unfold print_fixed. set (q := (n / _)%N). set (r := (n mod _)%N). rewrite !append_assoc.
  unfold int_scalar. rewrite take_sign_number. unfold all_digits. rewrite take_number by reflexivity. destruct (print_nat q); reflexivity.
Qed.
Lemma scalar_number neg k n e : 1 <= k -> ok_exp e ->
  scalar (sign_text neg +++ print_fixed k n +++ exp_part2 e) = Some (YNum ((if neg then -1 else 1) * IZR (Z.of_N n) * powerRZ 10 (exp_value e - Z.of_nat k))).
Proof. intros Hk He. unfold scalar. rewrite int_scalar_number, float_form_number, parse_number by assumption. reflexivity. Qed.
Lemma scalar_fix k x : 1 <= k -> scalar (fix_text k x) = Some (YNum (fix_value k x)).
Proof.
  intros H. unfold fix_text. rewrite minus_or_sign. rewrite <- (append_nil (print_fixed k _)).
  change "" with (exp_part2 None). rewrite scalar_number by (exact H || exact I). unfold fix_value, sgn. destruct (Rlt_bool x 0); reflexivity.
Qed.
(** Scientific text without the leading blank. *)
Definition sci_body (k : nat) (x : R) : string :=
  sign_text (Rlt_bool x 0) +++ print_fixed k (fst (sci_parts k x)) +++ "E" +++ exp_text (snd (sci_parts k x)).
Definition exp_digits (e : Z) : string := (if (Z.abs e <? 10)%Z then "0" else "") +++ print_nat (Z.to_N (Z.abs e)).
Lemma exp_digits_ok e : all_chars is_digit (exp_digits e) = true /\ exp_digits e <> "" /\ digits (exp_digits e) = Z.to_N (Z.abs e).
Proof.
  unfold exp_digits. split; [|split].
  - rewrite all_chars_app, print_nat_digits. now destruct (_ <? 10)%Z.
  - destruct (digits_head (Z.to_N (Z.abs e))) as (a & s & -> & _). destruct (_ <? 10)%Z; discriminate.
  - unfold digits. rewrite digits_from_app. assert (Z0 : digits_from 0 (if (Z.abs e <? 10)%Z then "0" else "") = 0%N) by (now destruct (_ <? 10)%Z).
    rewrite Z0, print_nat_value. lia.
Qed.
Lemma scalar_sci k x : 1 <= k -> scalar (sci_body k x) = Some (YNum (sci_value k x)).
Proof.
  intros H. unfold sci_body. set (e := snd (sci_parts k x)).
  replace ("E" +++ exp_text e) with (exp_part2 (Some ((e <? 0)%Z, exp_digits e))) by (unfold exp_part2, exp_text, exp_digits; now destruct (e <? 0)%Z).
  destruct (exp_digits_ok e) as (A & B & C).
  rewrite scalar_number by (exact H || (split; assumption)). cbn [exp_value]. rewrite C.
  assert (X : (if (e <? 0)%Z then (- Z.of_N (Z.to_N (Z.abs e)))%Z else Z.of_N (Z.to_N (Z.abs e))) = e).
  { rewrite Z2N.id by apply Z.abs_nonneg. destruct (Z.ltb_spec e 0); lia. }
  rewrite X. unfold sci_value, sgn. fold e. destruct (Rlt_bool x 0); reflexivity.
Qed.
Lemma ndigits_lower f n : (n < 2 ^ N.of_nat f)%N -> (2 <= ndigits f n) -> (10 ^ N.of_nat (ndigits f n - 1) <= n)%N.
Proof.
  revert n; induction f; intros n H L; cbn [ndigits] in *; [lia|].
  destruct (N.ltb_spec n 10) as [T|T]; [lia|].
  assert (n / 10 < 2 ^ N.of_nat f)%N.
  { apply N.div_lt_upper_bound; [lia|]. rewrite Nat2N.inj_succ, N.pow_succ_r' in H. lia. }
  replace (S (ndigits f (n / 10)) - 1) with (ndigits f (n / 10)) by lia.
  destruct (Nat.le_gt_cases 2 (ndigits f (n / 10))) as [G|G].
  - specialize (IHf _ H0 G). replace (ndigits f (n / 10)) with (S (ndigits f (n / 10) - 1)) by lia.
    rewrite Nat2N.inj_succ, N.pow_succ_r'. pose proof (N.mul_div_le n 10 ltac:(lia)). lia.
  - pose proof (ndigits_pos f (n / 10)). replace (ndigits f (n / 10)) with 1 by lia. change (10 ^ N.of_nat 1)%N with 10%N. lia.
Qed.
(** The first digit of a number with two digits or more is not 0. *)
Lemma fixed_head k n a s : fixed (S k) n = String a s -> (10 ^ N.of_nat k <= n < 10 ^ N.of_nat (S k))%N -> Ascii.eqb a "0" = false.
Proof.
  revert n a s; induction k; intros n a s E B.
  - change (10 ^ N.of_nat 0)%N with 1%N in B. change (10 ^ N.of_nat 1)%N with 10%N in B. cbn [fixed append] in E. injection E as <- _.
    rewrite N.mod_small by lia. apply Ascii.eqb_neq. intros F.
    destruct (digit_char_ok n ltac:(lia)) as (_ & V). rewrite F in V. change (digit_value "0") with 0%N in V. lia.
  - change (fixed (S (S k)) n) with (fixed (S k) (n / 10)%N +++ String (digit_char (n mod 10)%N) "") in E.
    destruct (fixed (S k) (n / 10)%N) as [|c t] eqn:F.
    + apply (f_equal String.length) in F. rewrite fixed_length in F. discriminate.
    + cbn [append] in E. injection E as <- _. apply (IHk _ _ _ F).
      rewrite !(Nat2N.inj_succ k), (Nat2N.inj_succ (S k)), Nat2N.inj_succ, !N.pow_succ_r' in *. split.
      * apply N.div_le_lower_bound; lia.
      * apply N.div_lt_upper_bound; lia.
Qed.
Lemma no_leading_zero n : leading_zero (print_nat n) = false.
Proof.
  destruct (digits_head n) as (a & s & E & _). rewrite E. destruct s as [|b s]; [reflexivity|]. cbn [leading_zero].
  unfold print_nat in E. set (k := ndigits (N.size_nat n) n) in *.
  assert (K : 2 <= k). { apply (f_equal String.length) in E. rewrite fixed_length in E. simpl in E. lia. }
  pose proof (ndigits_lower _ n (size_bound n) K) as L. pose proof (ndigits_bound _ n (size_bound n)) as U. fold k in L, U.
  destruct k as [|k]; [lia|]. simpl in L. rewrite Nat.sub_0_r in L. apply (fixed_head k n a _ E). split; assumption.
Qed.
Lemma scalar_int z : scalar (int_text z) = Some (YInt z).
Proof.
  unfold scalar, int_scalar, int_text. rewrite minus_or_sign. rewrite <- (append_nil (print_nat _)), take_sign_number, append_nil.
  unfold all_digits. rewrite take_digits_all by apply print_nat_digits.
  rewrite no_leading_zero. unfold digits. rewrite print_nat_value.
  destruct (digits_head (Z.to_N (Z.abs z))) as (a & s & -> & _). cbn [andb negb]. f_equal. f_equal.
  rewrite N.mul_0_l, N.add_0_l, Z2N.id by apply Z.abs_nonneg. destruct (Z.ltb_spec z 0); lia.
Qed.

(** ** Characters of the printed numbers *)
Definition number_char (a : ascii) : bool := (is_digit a || existsb (Ascii.eqb a) ["-"; "+"; "."; "E"]%char)%bool.
Lemma digits_number s : all_chars is_digit s = true -> all_chars number_char s = true.
Proof.
  induction s as [|a s IH]; simpl; [reflexivity|]. intros H. apply andb_prop in H. destruct H as (A & B).
  rewrite IH by exact B. unfold number_char at 1. rewrite A. reflexivity.
Qed.
Lemma print_fixed_number k n : all_chars number_char (print_fixed k n) = true.
Proof.
  unfold print_fixed. rewrite !all_chars_app, (digits_number (print_nat _)), (digits_number (fixed _ _)) by (apply fixed_digits || apply print_nat_digits). reflexivity.
Qed.
Lemma fix_chars k x : all_chars number_char (fix_text k x) = true.
Proof. unfold fix_text. rewrite all_chars_app, print_fixed_number. now destruct (Rlt_bool x 0). Qed.
Lemma sci_chars k x : all_chars number_char (sci_body k x) = true.
Proof.
  unfold sci_body. set (e := snd _). unfold exp_text. rewrite !all_chars_app, print_fixed_number, (digits_number (print_nat _)) by apply print_nat_digits.
  destruct (Rlt_bool x 0), (e <? 0)%Z, (Z.abs e <? 10)%Z; reflexivity.
Qed.
Lemma int_chars z : all_chars number_char (int_text z) = true.
Proof. unfold int_text. rewrite all_chars_app, (digits_number (print_nat _)) by apply print_nat_digits. now destruct (z <? 0)%Z. Qed.
Lemma nonempty_app a b : b <> "" -> a +++ b <> "".
Proof. destruct a; [tauto|discriminate]. Qed.
Lemma fix_nonempty k x : fix_text k x <> "".
Proof.
  unfold fix_text, print_fixed. apply nonempty_app. destruct (digits_head (scaled k x / 10 ^ N.of_nat k)) as (a & s & -> & _). discriminate.
Qed.
Lemma sci_nonempty k x : sci_body k x <> "".
Proof. unfold sci_body, print_fixed. apply nonempty_app. destruct (digits_head (fst (sci_parts k x) / 10 ^ N.of_nat k)) as (a & s & -> & _). discriminate. Qed.
Lemma int_nonempty z : int_text z <> "".
Proof. unfold int_text. apply nonempty_app. apply print_nat_nonempty. Qed.
(** Padded numbers are blanks and then the number. *)
Lemma fmt_f_text w k x : exists n, fmt_f w k x = spaces n +++ fix_text k x.
Proof. now eexists. Qed.
Lemma spaces_snoc n s : spaces n +++ String " " s = spaces (S n) +++ s.
Proof. induction n; [reflexivity|]. simpl. now rewrite IHn. Qed.
Lemma fmt_E_text w k x : exists n, fmt_E w k x = spaces n +++ sci_body k x.
Proof.
  unfold fmt_E, pad_left, sci_text, sci_body, minus_or. destruct (Rlt_bool x 0); [now eexists|].
  exists (S (w - String.length (" " +++ print_fixed k (fst (sci_parts k x)) +++ "E" +++ exp_text (snd (sci_parts k x))))).
  rewrite <- spaces_snoc. reflexivity.
Qed.
Lemma fmt_d_text w z : exists n, fmt_d w z = spaces n +++ int_text z.
Proof. now eexists. Qed.
