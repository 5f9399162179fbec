(** C88, first part: parameters printed as value(error). *)
From Coq Require Import Reals String Ascii List Bool Arith ZArith NArith Lia Lra.
From Flocq Require Import Core.
From Verif Require Import Py DecimalModel DecimalProofs FormatModel FormatProofs QhaRunModel ReportModel ReportSpec ReportProofs QhaReportModel.
Import ListNotations.
Open Scope string_scope.
Open Scope list_scope.
Open Scope nat_scope.

(** ** How such a text is read: the digits in brackets are in units of the last
    decimal of the number before them *)
Fixpoint after_point (t : string) : option string :=
  match t with EmptyString => None | String c r => if Ascii.eqb c "." then Some r else after_point r end.
Definition decimals (t : string) : nat := match after_point t with Some r => String.length r | None => 0 end.
Definition reads_as (t : string) (v u : R) : Prop :=
  exists body e z, t = body +++ "(" +++ e +++ ")" /\ parse_float body = Some (Num v) /\ parse_float e = Some (Num z) /\
    u = (z * powerRZ 10 (- Z.of_nat (decimals body)))%R.

(** ** Proofs *)
Lemma after_digits s r : all_chars is_digit s = true -> after_point (s +++ String "." r) = Some r.
Proof.
  induction s as [|a s IH]; [reflexivity|]. cbn [all_chars String.append after_point]. intros H. apply andb_prop in H as (A & B). rewrite (IH B).
  destruct (Ascii.eqb_spec a "."); [subst; discriminate A|reflexivity].
Qed.
Lemma no_point s : all_chars is_digit s = true -> after_point s = None.
Proof.
  induction s as [|a s IH]; [reflexivity|]. cbn [all_chars after_point]. intros H. apply andb_prop in H as (A & B). rewrite (IH B).
  destruct (Ascii.eqb_spec a "."); [subst; discriminate A|reflexivity].
Qed.
Lemma decimals_minus neg s : decimals (minus_or "" neg +++ s) = decimals s.
Proof. now destruct neg. Qed.
Lemma decimals_fixed k n : decimals (print_fixed k n) = k.
Proof.
  unfold decimals, print_fixed. change ("." ++ fixed k (n mod 10 ^ N.of_nat k))%string with (String "." (fixed k (n mod 10 ^ N.of_nat k)%N)).
  rewrite after_digits by apply print_nat_digits. apply fixed_length.
Qed.
Lemma decimals_int z : decimals (int_text z) = 0.
Proof. unfold int_text. rewrite decimals_minus. unfold decimals. now rewrite no_point by apply print_nat_digits. Qed.

Lemma strip_value k n : 1 <= k -> let '(k', n') := strip_zeros k n in
  1 <= k' <= k /\ (n' * 10 ^ N.of_nat (k - k') = n)%N /\ (k' = 1 \/ (n' mod 10 <> 0)%N).
Proof.
  revert n. induction k as [|k IH]; intros n H; [lia|]. cbn [strip_zeros]. destruct k as [|k]; [cbn; split; [lia|split; [lia|auto]]|].
  destruct (N.eqb_spec (n mod 10) 0) as [E|E].
  - specialize (IH (n / 10)%N ltac:(lia)). destruct (strip_zeros (S k) (n / 10)) as (k', n'). destruct IH as (A & B & C). split; [lia|]. split; [|exact C].
    replace (S (S k) - k') with (S (S k - k')) by lia. rewrite Nat2N.inj_succ, N.pow_succ_r'. pose proof (N.div_mod n 10 ltac:(lia)). lia.
  - rewrite Nat.sub_diag. split; [lia|]. split; [cbn; lia|auto].
Qed.
Lemma p10_nat k : IZR (Z.of_N (10 ^ N.of_nat k)) = powerRZ 10 (Z.of_nat k).
Proof. apply nat_pow10. Qed.
Lemma repr_parse k z : 1 <= k -> exists k', 1 <= k' <= k /\ decimals (repr_decimal k z) = k' /\
  parse_float (repr_decimal k z) = Some (Num (IZR z * powerRZ 10 (- Z.of_nat k))) /\
  (k' < k -> (Z.abs z mod 10 = 0)%Z) /\ ((Z.abs z mod 10 = 0)%Z -> 2 <= k -> k' < k).
Proof.
  intros H. unfold repr_decimal. pose proof (strip_value k (Z.to_N (Z.abs z)) H) as X.
  assert (Y : (Z.abs z mod 10 = 0)%Z <-> (Z.to_N (Z.abs z) mod 10 = 0)%N).
  { split; intros Q.
    - apply N2Z.inj. rewrite N2Z.inj_mod, Z2N.id by lia. exact Q.
    - apply (f_equal Z.of_N) in Q. rewrite N2Z.inj_mod, Z2N.id in Q by lia. exact Q. }
  destruct (strip_zeros k (Z.to_N (Z.abs z))) as (k', n') eqn:SZ. destruct X as (A & B & C). exists k'. split; [exact A|]. split; [|split; [|split]].
  - rewrite decimals_minus. apply decimals_fixed.
  - rewrite minus_or_sign. rewrite <- (append_nil (print_fixed k' n')). change "" with (exp_part2 None). rewrite parse_number by (lia || exact I).
    do 2 f_equal. cbn [exp_value].
    assert (V : IZR (Z.abs z) = (IZR (Z.of_N n') * powerRZ 10 (Z.of_nat (k - k')))%R).
    { rewrite <- (Z2N.id (Z.abs z)) by lia. rewrite <- B, N2Z.inj_mul, mult_IZR, p10_nat. reflexivity. }
    assert (S0 : IZR z = ((if (z <? 0)%Z then -1 else 1) * IZR (Z.abs z))%R).
    { destruct (Z.ltb_spec z 0); [rewrite Z.abs_neq, opp_IZR by lia; ring|rewrite Z.abs_eq by lia; ring]. }
    rewrite S0, V. rewrite !Rmult_assoc. f_equal. f_equal. rewrite <- powerRZ_add by lra. f_equal. lia.
  - intros L. apply Y. rewrite <- B. replace (k - k') with (S (k - k' - 1)) by lia. rewrite Nat2N.inj_succ, N.pow_succ_r'.
    replace (n' * (10 * 10 ^ N.of_nat (k - k' - 1)))%N with (n' * 10 ^ N.of_nat (k - k' - 1) * 10)%N by lia. apply N.mod_mul. lia.
  - intros Q L. apply Y in Q. destruct (Nat.eq_dec k' k) as [->|]; [|lia]. exfalso. destruct C as [C|C]; [lia|]. apply C.
    rewrite Nat.sub_diag in B. cbn in B. rewrite N.mul_1_r in B. now rewrite B.
Qed.

Lemma nearest_half y : (Rabs (IZR (ZnearestE y) - y) <= / 2)%R.
Proof. rewrite Rabs_minus_sym. apply Znearest_half. Qed.
Lemma rounded_at v m : (0 <= m)%Z -> rounded (Z.to_nat m) v (IZR (ZnearestE (v * powerRZ 10 m)) * powerRZ 10 (- m)).
Proof.
  intros H. unfold rounded. rewrite Z2Nat.id by lia. split; [now eexists|].
  pose proof (nearest_half (v * powerRZ 10 m)) as A. pose proof (p10_inv m) as B. pose proof (p10 (- m)) as C.
  replace (IZR (ZnearestE (v * powerRZ 10 m)) * powerRZ 10 (- m) - v)%R with ((IZR (ZnearestE (v * powerRZ 10 m)) - v * powerRZ 10 m) * powerRZ 10 (- m))%R.
  - rewrite Rabs_mult, (Rabs_pos_eq (powerRZ 10 (- m))) by lra. apply Rmult_le_compat_r; lra.
  - rewrite Rmult_minus_distr_r, (Rmult_assoc v), B. ring.
Qed.
Lemma nearest_ge y z : (IZR z - / 2 < y)%R -> (z <= ZnearestE y)%Z.
Proof.
  intros H. pose proof (nearest_half y) as A. apply Rabs_le_inv in A. apply Z.lt_pred_le. apply lt_IZR. unfold Z.pred. rewrite plus_IZR. lra.
Qed.
Lemma nearest_lt y z : (y < IZR z - / 2)%R -> (ZnearestE y < z)%Z.
Proof. intros H. pose proof (nearest_half y) as A. apply Rabs_le_inv in A. apply lt_IZR. lra. Qed.
Lemma nearest_lt' y z : (y < IZR z + / 2)%R -> (ZnearestE y <= z)%Z.
Proof. intros H. apply Z.lt_succ_r. apply nearest_lt. unfold Z.succ. rewrite plus_IZR. lra. Qed.
Lemma nine_half y : (19 / 2 <= y)%R -> (10 <= ZnearestE y)%Z.
Proof.
  intros H. destruct (Req_dec y (19 / 2)) as [->|N].
  - assert (Z9 : Zfloor (19 / 2) = 9%Z) by (apply Zfloor_imp; simpl; lra).
    unfold Znearest. rewrite Z9. rewrite Rcompare_Eq by lra. rewrite (Zceil_floor_neq (19 / 2)), Z9; [reflexivity|]. rewrite Z9. lra.
  - apply nearest_ge. lra.
Qed.
(** The number of decimals chosen by the program. *)
Definition places (e : R) : Z :=
  let m0 := (if Rlt_bool e 1 then - exponent e else exponent e)%Z in
  if (10 <=? ZnearestE (e * powerRZ 10 m0))%Z then (m0 - 1)%Z else m0.
Lemma concise_is ft label v e : (0 < e)%R ->
  concise ft label v (Fin e) = Ok (label +++ " = " +++
    (if (0 <? places e)%Z then repr_decimal (Z.to_nat (places e)) (ZnearestE (v * powerRZ 10 (places e))) else int_text (ZnearestE (v * powerRZ 10 (places e)) * 10 ^ (- places e))%Z)
    +++ "(" +++ int_text (ZnearestE (e * powerRZ 10 (places e))) +++ ")").
Proof.
  intros H. unfold concise. rewrite Rlt_bool_false by lra. rewrite Req_bool_false by lra. reflexivity.
Qed.
Lemma exponent_neg e : (0 < e < 1)%R -> (exponent e < 0)%Z.
Proof.
  intros H. pose proof (exponent_bounds e ltac:(lra)) as B. rewrite Rabs_pos_eq in B by lra. destruct (Z_lt_le_dec (exponent e) 0) as [|L]; [assumption|].
  exfalso. assert (1 <= powerRZ 10 (exponent e))%R; [|lra]. rewrite <- (Z2Nat.id (exponent e)) by lia. rewrite <- pow_powerRZ. apply pow_R1_Rle. lra.
Qed.
Lemma exponent_nonneg e : (1 <= e)%R -> (0 <= exponent e)%Z.
Proof.
  intros H. pose proof (exponent_bounds e ltac:(lra)) as B. rewrite Rabs_pos_eq in B by lra. destruct (Z_lt_le_dec (exponent e) 0) as [L|]; [|assumption].
  exfalso. assert (powerRZ 10 (exponent e + 1) <= 1)%R; [|lra].
  replace (exponent e + 1)%Z with (- Z.of_nat (Z.to_nat (- exponent e - 1)))%Z by lia. rewrite powerRZ_neg' by lra. rewrite <- pow_powerRZ.
  rewrite <- Rinv_1. apply Rinv_le; [lra|]. apply pow_R1_Rle. lra.
Qed.
Lemma p10_succ m : powerRZ 10 (m + 1) = (10 * powerRZ 10 m)%R.
Proof. rewrite powerRZ_add by lra. rewrite powerRZ_1. ring. Qed.
Lemma p10_pred m : powerRZ 10 (m - 1) = (powerRZ 10 m / 10)%R.
Proof. replace m with (m - 1 + 1)%Z at 2 by lia. rewrite p10_succ. field. Qed.
(** Below one the last decimal is the first digit of the error. *)
Lemma places_small e : (0 < e < 1)%R -> (0 <= places e)%Z /\ (95 / 100 <= e * powerRZ 10 (places e) < 95 / 10)%R.
Proof.
  intros H. unfold places. rewrite Rlt_bool_true by lra. pose proof (exponent_neg e H) as N. pose proof (exponent_bounds e ltac:(lra)) as B. rewrite Rabs_pos_eq in B by lra.
  rewrite p10_succ in B. set (m := (- exponent e)%Z) in *. pose proof (p10_inv (exponent e)) as I. fold m in I. pose proof (p10 m) as Q.
  assert (L : (1 <= e * powerRZ 10 m < 10)%R).
  { split; [rewrite <- I; apply Rmult_le_compat_r; lra|]. apply Rlt_le_trans with (10 * powerRZ 10 (exponent e) * powerRZ 10 m)%R.
    - apply Rmult_lt_compat_r; lra.
    - rewrite Rmult_assoc, I. lra. }
  destruct (Z.leb_spec 10 (ZnearestE (e * powerRZ 10 m))) as [T|T].
  - split; [lia|]. rewrite p10_pred. assert (19 / 2 <= e * powerRZ 10 m)%R; [|lra].
    destruct (Rle_lt_dec (19 / 2) (e * powerRZ 10 m)) as [|X]; [assumption|]. exfalso. assert (ZnearestE (e * powerRZ 10 m) < 10)%Z by (apply nearest_lt; lra). lia.
  - split; [lia|]. split; [lra|]. destruct (Rlt_le_dec (e * powerRZ 10 m) (19 / 2)); [lra|]. exfalso. pose proof (nine_half _ r). lia.
Qed.
Lemma places_big e : (1 <= e)%R ->
  ((1 <= e < 19 / 2)%R -> places e = 0%Z) /\ ((19 / 2 <= e < 10)%R -> places e = (-1)%Z) /\ ((10 <= e)%R -> places e = (exponent e - 1)%Z /\ (1 <= exponent e)%Z).
Proof.
  intros H. unfold places. rewrite Rlt_bool_false by lra. pose proof (exponent_nonneg e H) as N. pose proof (exponent_bounds e ltac:(lra)) as B. rewrite Rabs_pos_eq in B by lra.
  assert (Z0 : (e < 10)%R -> exponent e = 0%Z).
  { intros L. destruct (Z.eq_dec (exponent e) 0) as [|X]; [assumption|]. exfalso. assert (10 <= powerRZ 10 (exponent e))%R; [|lra].
    replace (exponent e) with (exponent e - 1 + 1)%Z by lia. rewrite p10_succ. rewrite <- (Z2Nat.id (exponent e - 1)) by lia. rewrite <- pow_powerRZ.
    assert (1 <= 10 ^ Z.to_nat (exponent e - 1))%R by (apply pow_R1_Rle; lra). lra. }
  split; [|split].
  - intros (_ & L). rewrite Z0 by lra. rewrite powerRZ_O, Rmult_1_r. destruct (Z.leb_spec 10 (ZnearestE e)); [|reflexivity].
    assert (ZnearestE e < 10)%Z by (apply nearest_lt; lra). lia.
  - intros (L & U). rewrite Z0 by lra. rewrite powerRZ_O, Rmult_1_r. pose proof (nine_half e L). destruct (Z.leb_spec 10 (ZnearestE e)); [reflexivity|lia].
  - intros L. assert (E1 : (1 <= exponent e)%Z).
    { destruct (Z.eq_dec (exponent e) 0) as [X|]; [|lia]. rewrite X in B. simpl in B. lra. }
    split; [|exact E1]. assert (10 <= powerRZ 10 (exponent e))%R.
    { replace (exponent e) with (exponent e - 1 + 1)%Z by lia. rewrite p10_succ. rewrite <- (Z2Nat.id (exponent e - 1)) by lia. rewrite <- pow_powerRZ.
      assert (1 <= 10 ^ Z.to_nat (exponent e - 1))%R by (apply pow_R1_Rle; lra). lra. }
    assert (10 <= ZnearestE (e * powerRZ 10 (exponent e)))%Z; [|destruct (Z.leb_spec 10 (ZnearestE (e * powerRZ 10 (exponent e)))); lia].
    apply nearest_ge. assert (10 * 10 <= e * powerRZ 10 (exponent e))%R by (apply Rmult_le_compat; lra). lra.
Qed.

Lemma same_place e a b : (0 < e)%R -> (95 / 100 <= e * powerRZ 10 a)%R -> (e * powerRZ 10 b < 95 / 10)%R -> (b <= a)%Z.
Proof.
  intros P U V. destruct (Z_le_gt_dec b a) as [|G]; [assumption|]. exfalso.
  assert (e * powerRZ 10 b >= e * (10 * powerRZ 10 a))%R; [|lra]. apply Rle_ge, Rmult_le_compat_l; [lra|]. rewrite <- p10_succ.
  replace b with (a + 1 + (b - (a + 1)))%Z by lia. rewrite (powerRZ_add 10 (a + 1)) by lra. rewrite <- (Z2Nat.id (b - (a + 1))) by lia. rewrite <- pow_powerRZ.
  pose proof (p10 (a + 1)). assert (1 <= 10 ^ Z.to_nat (b - (a + 1)))%R by (apply pow_R1_Rle; lra).
  rewrite <- (Rmult_1_r (powerRZ 10 (a + 1))) at 1. apply Rmult_le_compat_l; lra.
Qed.
Lemma places_value e d : (0 < e < 1)%R -> (95 / 100 <= e * powerRZ 10 d < 95 / 10)%R -> places e = d.
Proof. intros H He. destruct (places_small e H) as (A & B). apply Z.le_antisymm; apply (same_place e); lra. Qed.

(** ** C88 *)
(** "label = value(error)": read back, value and error are the fitted parameter and
    its standard error correctly rounded to the same number d of decimals, and no
    fewer than shows the first digit of the error. Needed: the value does not end
    in zero there, and the error is not between 9.5 and 10. *)
Theorem C88_parameters float_text label val e :
  (0 < e < 95 / 10 \/ 10 <= e < 1000)%R ->
  (forall (d : nat) (z : Z), 2 <= d -> (95 / 100 <= e * powerRZ 10 (Z.of_nat d) < 95 / 10)%R ->
     ~ rounded d val (IZR z * powerRZ 10 (1 - Z.of_nat d))) ->
  exists t v u d, concise float_text label val (Fin e) = Ok (label +++ " = " +++ t) /\ reads_as t v u /\
    rounded d val v /\ rounded d e u /\ (95 / 100 <= e * powerRZ 10 (Z.of_nat d))%R.
Proof.
  intros He NZ.
  assert (P : (0 <= places e)%Z /\ ((places e <= 1)%Z \/ (95 / 100 <= e * powerRZ 10 (places e) < 95 / 10)%R) /\ (95 / 100 <= e * powerRZ 10 (places e))%R).
  { destruct (Rlt_le_dec e 1) as [L|L].
    - destruct (places_small e ltac:(lra)) as (A & B). split; [exact A|]. split; [right; exact B|lra].
    - destruct (places_big e L) as (A & _ & C). destruct He as [He|He].
      + rewrite A by lra. split; [lia|]. split; [left; lia|]. rewrite powerRZ_O. lra.
      + destruct C as (C & D); [lra|]. assert (exponent e <= 2)%Z.
        { pose proof (exponent_bounds e ltac:(lra)) as B. rewrite Rabs_pos_eq in B by lra. destruct (Z_le_gt_dec (exponent e) 2) as [|G]; [assumption|].
          exfalso. assert (1000 <= powerRZ 10 (exponent e))%R; [|lra]. replace (exponent e) with (3 + (exponent e - 3))%Z by lia. rewrite powerRZ_add by lra.
          rewrite <- (Z2Nat.id (exponent e - 3)) by lia. rewrite <- pow_powerRZ. assert (1 <= 10 ^ Z.to_nat (exponent e - 3))%R by (apply pow_R1_Rle; lra). simpl (powerRZ 10 3). lra. }
        rewrite C. split; [lia|]. split; [left; lia|]. rewrite <- (Z2Nat.id (exponent e - 1)) by lia. rewrite <- pow_powerRZ.
        assert (1 <= 10 ^ Z.to_nat (exponent e - 1))%R by (apply pow_R1_Rle; lra). apply Rle_trans with (1 * 1)%R; [lra|]. apply Rmult_le_compat; lra. }
  destruct P as (P0 & P1 & P2). set (m := places e) in *.
  rewrite concise_is by lra. fold m. set (n := ZnearestE (val * powerRZ 10 m)). set (q := ZnearestE (e * powerRZ 10 m)).
  exists ((if (0 <? m)%Z then repr_decimal (Z.to_nat m) n else int_text (n * 10 ^ (- m))%Z) +++ "(" +++ int_text q +++ ")"),
    (IZR n * powerRZ 10 (- m))%R, (IZR q * powerRZ 10 (- m))%R, (Z.to_nat m).
  split; [reflexivity|]. split; [|split; [apply rounded_at; lia|split; [apply rounded_at; lia|rewrite Z2Nat.id by lia; exact P2]]].
  exists (if (0 <? m)%Z then repr_decimal (Z.to_nat m) n else int_text (n * 10 ^ (- m))%Z), (int_text q), (IZR q). split; [reflexivity|].
  destruct (Z.ltb_spec 0 m) as [L|L].
  - destruct (repr_parse (Z.to_nat m) n ltac:(lia)) as (k' & A & B & C & D & _). rewrite C, Z2Nat.id by lia. split; [reflexivity|].
    split; [apply parse_int|]. f_equal. f_equal. rewrite B. f_equal. destruct (Nat.eq_dec k' (Z.to_nat m)) as [->|X]; [lia|]. exfalso.
    specialize (D ltac:(lia)). destruct P1 as [P1|P1]; [lia|]. apply (NZ (Z.to_nat m) (n / 10)%Z); [lia|rewrite Z2Nat.id by lia; exact P1|].
    assert (M : (n mod 10 = 0)%Z).
    { apply Z.mod_divide; [lia|]. apply Z.mod_divide in D; [|lia]. destruct D as (w & D); destruct (Z.abs_spec n) as [(_ & X1)|(_ & X1)]; [exists w|exists (- w)%Z]; lia. }
    replace (IZR (n / 10) * powerRZ 10 (1 - Z.of_nat (Z.to_nat m)))%R with (IZR n * powerRZ 10 (- m))%R; [apply rounded_at; lia|].
    rewrite (Z.div_mod n 10) at 1 by lia. rewrite M, Z.add_0_r, mult_IZR, Z2Nat.id by lia. replace (1 - m)%Z with (- m + 1)%Z by lia. rewrite p10_succ. ring.
  - replace m with 0%Z by lia. cbn [Z.opp]. rewrite !parse_int, Z.mul_1_r, powerRZ_O, !Rmult_1_r. split; [reflexivity|]. split; [reflexivity|].
    rewrite decimals_int. simpl. ring.
Qed.

Ltac spell := cbn [Z.ltb Z.compare Z.to_nat Z.opp]; repeat match goal with |- context [ZnearestE ?y] => first
  [rewrite (Znearest_imp (fun x => negb (Z.even x)) y 3712) by (simpl; apply Rabs_lt; lra)
  |rewrite (Znearest_imp (fun x => negb (Z.even x)) y 3710) by (simpl; apply Rabs_lt; lra)
  |rewrite (Znearest_imp (fun x => negb (Z.even x)) y 2) by (simpl; apply Rabs_lt; lra)
  |rewrite (Znearest_imp (fun x => negb (Z.even x)) y 4) by (simpl; apply Rabs_lt; lra)
  |rewrite (Znearest_imp (fun x => negb (Z.even x)) y 1) by (simpl; apply Rabs_lt; lra)] end; vm_compute; reflexivity.
Example C88_parameters_text ft : concise ft "K0 (GPa)" (37123 / 1000) (Fin (2 / 100)) = Ok "K0 (GPa) = 37.12(2)".
Proof. rewrite concise_is by lra. rewrite (places_value (2 / 100) 2) by (simpl; lra). spell. Qed.
Example C88_parameters_instance : (0 < 2 / 100 < 95 / 10)%R /\
  forall (d : nat) (z : Z), 2 <= d -> (95 / 100 <= 2 / 100 * powerRZ 10 (Z.of_nat d) < 95 / 10)%R -> ~ rounded d (37123 / 1000) (IZR z * powerRZ 10 (1 - Z.of_nat d)).
Proof.
  split; [lra|]. intros d z H He. assert (D : Z.of_nat d = 2%Z) by (rewrite <- (places_value (2 / 100) (Z.of_nat d)); [apply places_value; simpl; lra|lra|exact He]).
  unfold rounded. rewrite D. intros (_ & B). simpl in B. apply Rabs_le_inv in B.
  assert (A1 : (371 < z)%Z) by (apply lt_IZR; lra). assert (A2 : (z < 372)%Z) by (apply lt_IZR; lra). lia.
Qed.

(** A value which ends in zero at the last decimal loses it, so the error is read
    at least six times too large. *)
Theorem C88_trailing_zero_refuted float_text label val e (d : nat) (z : Z) :
  2 <= d -> (95 / 100 <= e * powerRZ 10 (Z.of_nat d) < 95 / 10)%R -> (Rabs (IZR z * powerRZ 10 (1 - Z.of_nat d) - val) < / 2 * powerRZ 10 (- Z.of_nat d))%R ->
  exists t v u, concise float_text label val (Fin e) = Ok (label +++ " = " +++ t) /\ reads_as t v u /\ rounded d val v /\ (6 * e <= u)%R.
Proof.
  intros H He HV. pose proof (p10 (Z.of_nat d)) as Q. pose proof (p10_inv (Z.of_nat d)) as I. pose proof (p10 (- Z.of_nat d)) as Q'.
  assert (E1 : (0 < e < 1)%R).
  { assert (100 <= powerRZ 10 (Z.of_nat d))%R.
    { rewrite <- pow_powerRZ. replace d with (2 + (d - 2)) by lia. rewrite pow_add. assert (1 <= 10 ^ (d - 2))%R by (apply pow_R1_Rle; lra). simpl (10 ^ 2)%R. lra. }
    split; [apply Rmult_lt_reg_r with (powerRZ 10 (Z.of_nat d)); lra|]. apply Rmult_lt_reg_r with (powerRZ 10 (Z.of_nat d)); lra. }
  pose proof (places_value e _ E1 He) as PM.
  rewrite concise_is by lra. rewrite PM. destruct (Z.ltb_spec 0 (Z.of_nat d)); [|lia]. rewrite Nat2Z.id.
  assert (N : ZnearestE (val * powerRZ 10 (Z.of_nat d)) = (10 * z)%Z).
  { apply Znearest_imp. rewrite mult_IZR. replace (1 - Z.of_nat d)%Z with (- Z.of_nat d + 1)%Z in HV by lia. rewrite p10_succ in HV.
    rewrite Rabs_minus_sym in HV. apply Rmult_lt_reg_r with (powerRZ 10 (- Z.of_nat d)); [exact Q'|]. rewrite <- (Rabs_pos_eq (powerRZ 10 (- Z.of_nat d))) at 1 by lra.
    rewrite <- Rabs_mult. replace ((val * powerRZ 10 (Z.of_nat d) - 10 * IZR z) * powerRZ 10 (- Z.of_nat d))%R with (val - IZR z * (10 * powerRZ 10 (- Z.of_nat d)))%R; [exact HV|].
    rewrite Rmult_minus_distr_r, (Rmult_assoc val), I. ring. }
  rewrite N. destruct (repr_parse d (10 * z) ltac:(lia)) as (k' & K1 & K2 & K3 & _ & K5).
  specialize (K5 ltac:(rewrite Z.abs_mul, Z.mul_comm; apply Z.mod_mul; lia) H).
  eexists _, _, _. split; [reflexivity|]. split; [eexists _, _, _; split; [reflexivity|]; split; [exact K3|]; split; [apply parse_int|reflexivity]|]. split.
  - rewrite <- N. rewrite <- (Nat2Z.id d) at 1. apply rounded_at. lia.
  - rewrite K2. set (q := ZnearestE (e * powerRZ 10 (Z.of_nat d))).
    assert (q1 : (IZR q >= 6 / 10 * (e * powerRZ 10 (Z.of_nat d)))%R).
    { pose proof (nearest_half (e * powerRZ 10 (Z.of_nat d))) as NH. fold q in NH. apply Rabs_le_inv in NH.
      assert (1 <= q)%Z by (apply nearest_ge; lra). apply IZR_le in H1. destruct (Rle_lt_dec (e * powerRZ 10 (Z.of_nat d)) (3 / 2)); lra. }
    assert (k1 : (10 * powerRZ 10 (- Z.of_nat d) <= powerRZ 10 (- Z.of_nat k'))%R).
    { rewrite <- p10_succ. replace (- Z.of_nat k')%Z with (- Z.of_nat d + 1 + Z.of_nat (d - k' - 1))%Z by lia. rewrite (powerRZ_add 10 (- Z.of_nat d + 1)) by lra.
      pose proof (p10 (- Z.of_nat d + 1)). rewrite <- pow_powerRZ. assert (1 <= 10 ^ (d - k' - 1))%R by (apply pow_R1_Rle; lra).
      rewrite <- (Rmult_1_r (powerRZ 10 (- Z.of_nat d + 1))) at 1. apply Rmult_le_compat_l; lra. }
    apply Rle_trans with (6 / 10 * (e * powerRZ 10 (Z.of_nat d)) * (10 * powerRZ 10 (- Z.of_nat d)))%R.
    + replace (6 / 10 * (e * powerRZ 10 (Z.of_nat d)) * (10 * powerRZ 10 (- Z.of_nat d)))%R with (6 * e * (powerRZ 10 (Z.of_nat d) * powerRZ 10 (- Z.of_nat d)))%R by (field_simplify; ring).
      rewrite I. lra.
    + apply Rmult_le_compat; lra.
Qed.

Example C88_trailing_zero_text ft : concise ft "K0 (GPa)" (371 / 10) (Fin (2 / 100)) = Ok "K0 (GPa) = 37.1(2)".
Proof. rewrite concise_is by lra. rewrite (places_value (2 / 100) 2) by (simpl; lra). spell. Qed.
Example C88_trailing_zero_instance : (95 / 100 <= 2 / 100 * powerRZ 10 (Z.of_nat 2) < 95 / 10)%R /\
  (Rabs (IZR 371 * powerRZ 10 (1 - Z.of_nat 2) - 371 / 10) < / 2 * powerRZ 10 (- Z.of_nat 2))%R.
Proof. simpl. split; [lra|]. apply Rabs_lt. lra. Qed.

(** An error between 9.5 and 10 is shown as 1, and the value rounded to tens. *)
Theorem C88_nearly_ten_refuted float_text label val e :
  (95 / 10 <= e < 10)%R ->
  exists t v n, concise float_text label val (Fin e) = Ok (label +++ " = " +++ t) /\ reads_as t v 1 /\ v = (10 * IZR n)%R /\ (Rabs (v - val) <= 5)%R.
Proof.
  intros H. rewrite concise_is by lra. destruct (places_big e ltac:(lra)) as (_ & -> & _); [|lra]. cbn [Z.ltb Z.compare Z.opp].
  change (10 ^ 1)%Z with 10%Z. set (n := ZnearestE (val * powerRZ 10 (-1))).
  assert (Q1 : ZnearestE (e * powerRZ 10 (-1)) = 1%Z).
  { apply Znearest_imp. simpl. rewrite Rmult_1_r. apply Rabs_lt. lra. }
  rewrite Q1. eexists _, _, n. split; [reflexivity|]. split; [eexists _, _, _; split; [reflexivity|]; split; [apply parse_int|]; split; [apply parse_int|]|].
  - rewrite decimals_int. simpl. ring.
  - split; [rewrite mult_IZR; ring|]. rewrite mult_IZR. pose proof (nearest_half (val * powerRZ 10 (-1))) as A. fold n in A. simpl in A. rewrite Rmult_1_r in A.
    apply Rabs_le_inv in A. apply Rabs_le. lra.
Qed.

Example C88_nearly_ten_text ft : concise ft "K0 (GPa)" 37 (Fin (97 / 10)) = Ok "K0 (GPa) = 40(1)".
Proof. rewrite concise_is by lra. destruct (places_big (97 / 10) ltac:(lra)) as (_ & -> & _); [|lra]. spell. Qed.

Print Assumptions C88_parameters.
Print Assumptions C88_trailing_zero_refuted.
Print Assumptions C88_nearly_ten_refuted.
