(** C88: what the reports of (quasi-)harmonic runs say. *)
From Coq Require Import Reals String Ascii List Bool Arith ZArith Lia Lra.
From Coquelicot Require Import Coquelicot.
From Flocq Require Import Core.
From Verif Require Import Py DecimalModel DecimalProofs FormatModel FormatProofs TableModel StatMechModel UnitsModel UnitsSpec UnitsProofs UnitsProps PolyModel PolyProps EvEosModel EvEosProps
  QhaRunModel QhaRunProps QhaRunProps2 QhaEqProps ReportModel ReportSpec ReportProofs QhaReportModel QhaConciseProps.
Import ListNotations.
Open Scope string_scope.
Open Scope list_scope.
Open Scope nat_scope.

(** ** What the reports should say *)
(** [t] is the slope of the data at point [i]: of the parabola through the point
    and its two neighbours, at the ends of the chord to the only neighbour. *)
Definition parabola_slope (f v : nat -> R) (i : nat) (t : R) : Prop :=
  exists a b c : R, (forall k, k = i - 1 \/ k = i \/ k = S i -> f k = (a + b * v k + c * v k ^ 2)%R) /\ t = (b + 2 * c * v i)%R.
Definition chord_slope (f v : nat -> R) (i j : nat) (t : R) : Prop := (t * (v j - v i) = f j - f i)%R.
Definition slope_at (n : nat) (f v : nat -> R) (i : nat) (t : R) : Prop :=
  (i = 0 -> chord_slope f v 0 1 t) /\ (0 < i -> S i = n -> chord_slope f v (i - 1) i t) /\ (0 < i -> S i < n -> parabola_slope f v i t).
Definition distinct_values (n : nat) (v : nat -> R) : Prop := forall i j, i < n -> j < n -> v i = v j -> i = j.
(** The number of atoms, volumes and so on. *)
Definition system_block (h : header) (n : nat) (modes : Z) (ls : list string) : Prop :=
  exists a b c d, ls = [a; b; c; d] /\
    says a [Word "-"; Word "Number"; Word "of"; Word "volumes"; Whole (Z.of_nat n)] /\
    says b [Word "-"; Word "Number"; Word "of"; Word "atoms"; Whole (natoms h)] /\
    says c [Word "-"; Word "Number"; Word "of"; Word "sampled"; Word "k-points"; Whole (kpoints h)] /\
    says d [Word "-"; Word "Number"; Word "of"; Word "frequencies"; Whole modes].
(** A table: a line of names, a rule, and one line for each index. *)
Definition table_block (names : list cell) (n : nat) (cells : nat -> list cell -> Prop) (ls : list string) : Prop :=
  exists head bar rows, ls = head :: bar :: rows /\ says head names /\
    Forall2 (fun i l => exists cs, cells i cs /\ says l cs) (seq 0 n) rows.
Definition with_unit (name unit : string) : list cell := [Word name; Word ("(" +++ unit +++ ")")].

(** ** Proofs *)
Lemma no_space_app a b : no_space a -> no_space b -> no_space (a +++ b).
Proof. unfold no_space. rewrite all_chars_app. intros -> ->. reflexivity. Qed.
Lemma label_says name unit : no_space name -> name <> "" -> name <> "|" -> no_space unit -> says (name +++ " (" +++ unit +++ ")") (with_unit name unit).
Proof.
  intros A B C U. change (" (" +++ unit +++ ")") with (String " " ("(" +++ unit +++ ")")). apply (says_join _ _ [Word name]); [now apply says_word|].
  apply says_word; [apply no_space_app; [reflexivity|apply no_space_app; [exact U|reflexivity]]| |]; discriminate.
Qed.
Lemma item_says label ws z : words label = ws -> says (item label (int_text z)) (Word "-" :: map Word ws ++ [Whole z]).
Proof.
  intros H. unfold item. change ("- " +++ ?r) with ("-" +++ String " " r). apply (says_join _ _ [Word "-"]); [literal|].
  change (" " +++ int_text z) with (String " " (int_text z)). apply says_join; [apply says_pad_right; now apply says_text|apply says_int].
Qed.
Lemma system_contains h x rest : contains (system_lines h x ++ rest) ["Job: " +++ job h] /\
  exists ls, contains (system_lines h x ++ rest) ("System:" :: ls) /\ system_block h (nvol x) (Ztrunc (IZR (natoms h * 3) * total_q_points x)) ls.
Proof.
  unfold system_lines. split; [apply contains_left; now exists [""], (skipn 2 (system_lines h x))|].
  exists [item "Number of volumes" (int_text (Z.of_nat (nvol x))); item "Number of atoms" (int_text (natoms h));
    item "Number of sampled k-points" (int_text (kpoints h)); item "Number of frequencies" (int_text (Ztrunc (IZR (natoms h * 3) * total_q_points x)))].
  split; [apply contains_left; apply (contains_skip [""; "Job: " +++ job h; ""]); now exists [], [""; "Volume and energy values:"; ""]|].
  eexists _, _, _, _. split; [reflexivity|].
  split; [apply (item_says "Number of volumes" ["Number"; "of"; "volumes"]); reflexivity|]. split; [apply (item_says "Number of atoms" ["Number"; "of"; "atoms"]); reflexivity|].
  split; [apply (item_says "Number of sampled k-points" ["Number"; "of"; "sampled"; "k-points"]); reflexivity|apply (item_says "Number of frequencies" ["Number"; "of"; "frequencies"]); reflexivity].
Qed.
Lemma gradient_slope n f v g i : np_gradient n f v = Ok g -> distinct_values n v -> i < n -> slope_at n f v i (g i).
Proof.
  unfold np_gradient. intros H D Hi. destruct (Nat.ltb_spec n 2) as [L|L]; [discriminate|]. assert (H' := f_equal (fun o => match o with Ok a => a i | Raises _ => 0%R end) H). cbv beta iota in H'. rewrite <- H'. clear H H'.
  assert (NE : forall a b, a < n -> b < n -> a <> b -> (v b - v a <> 0)%R) by (intros a b A B N E; apply N, (D a b A B); lra).
  split; [|split].
  - intros ->. cbn [Nat.eqb]. unfold chord_slope. field. apply NE; lia.
  - intros P E. replace (i =? 0) with false by (symmetry; apply Nat.eqb_neq; lia). replace (S i =? n) with true by (symmetry; apply Nat.eqb_eq; lia). unfold chord_slope. field. apply NE; lia.
  - intros P E. replace (i =? 0) with false by (symmetry; apply Nat.eqb_neq; lia). replace (S i =? n) with false by (symmetry; apply Nat.eqb_neq; lia).
    pose proof (NE (i - 1) i ltac:(lia) ltac:(lia) ltac:(lia)) as A. pose proof (NE i (S i) ltac:(lia) ltac:(lia) ltac:(lia)) as B.
    pose proof (NE (i - 1) (S i) ltac:(lia) ltac:(lia) ltac:(lia)) as C. unfold parabola_slope. cbv beta zeta.
    set (x0 := v (i - 1)) in *. set (x1 := v i) in *. set (x2 := v (S i)) in *. set (y0 := f (i - 1)). set (y1 := f i). set (y2 := f (S i)).
    set (c := (((y2 - y1) / (x2 - x1) - (y1 - y0) / (x1 - x0)) / (x2 - x0))%R). set (b := ((y1 - y0) / (x1 - x0) - c * (x0 + x1))%R).
    exists (y0 - b * x0 - c * x0 ^ 2)%R, b, c. split.
    + intros k [->|[->| ->]]; fold x0 x1 x2 y0 y1 y2; [ring| |]; unfold b, c; field; auto.
    + unfold b, c. field. repeat split; auto; replace (x1 - x0 + (x2 - x1))%R with (x2 - x0)%R by ring; auto.
Qed.

Section Report.
Variable K : constants.
Variable eos_fit : string -> nat -> (nat -> R) -> (nat -> R) -> outcome ((R * R * R * R) * (shown * shown * shown * shown)).
Variable float_text : R -> string.
Variable s : settings.
Variable x : input.
Hypotheses (Ue : no_space (eunit s)) (Uv : no_space (vunit s)) (Up : no_space (punit s)).
Notation report h := (report_input K eos_fit float_text s x h).

Lemma table_line ps i : says (" " +++ right 15 3 (Fin (ps i)) +++ " " +++ centred 15 6 (Fin (volume x i)) +++ " " +++ centred_e 30 12 (static_energy x i))
  [Decimals 3 (ps i); Decimals 6 (volume x i); Digits 12 (static_energy x i)].
Proof.
  apply says_blank. apply (says_space' _ _ [Decimals 3 (ps i)] [Decimals 6 (volume x i); Digits 12 (static_energy x i)]); [apply (says_right _ _ (Fin (ps i))); lia| |reflexivity].
  apply (says_space' _ _ [Decimals 6 (volume x i)] [Digits 12 (static_energy x i)]); [apply (says_centred _ _ (Fin (volume x i))); lia|apply says_centred_e; lia|reflexivity].
Qed.
Lemma volume_label : says ("Volume (" +++ vunit s +++ "^3)") (with_unit "Volume" (vunit s +++ "^3")).
Proof. pose proof (label_says "Volume" (vunit s +++ "^3") eq_refl ltac:(discriminate) ltac:(discriminate) (no_space_app _ "^3" Uv eq_refl)) as H. rewrite append_assoc in H. exact H. Qed.
Lemma energy_label : says ("Energy (" +++ eunit s +++ ")") (with_unit "Energy" (eunit s)).
Proof. exact (label_says "Energy" (eunit s) eq_refl ltac:(discriminate) ltac:(discriminate) Ue). Qed.
Lemma report_table h ps lines : input_pressures K eos_fit float_text s x = Ok (ps, lines) -> exists text, report h = Ok text /\
  contains text ["Job: " +++ job h] /\
  (exists ls, contains text ("System:" :: ls) /\ system_block h (nvol x) (Ztrunc (IZR (natoms h * 3) * total_q_points x)) ls) /\
  exists ls, contains text (ls ++ lines) /\
    table_block (with_unit "Pressure" (punit s) ++ with_unit "Volume" (vunit s +++ "^3") ++ with_unit "Energy" (eunit s)) (nvol x)
      (fun i cs => cs = [Decimals 3 (ps i); Decimals 6 (volume x i); Digits 12 (static_energy x i)]) ls.
Proof.
  intros E. unfold report_input. rewrite E. cbn [bind]. eexists. split; [reflexivity|].
  match goal with |- contains (system_lines h x ++ ?r) _ /\ _ => destruct (system_contains h x r) as (A & B) end. split; [exact A|]. split; [exact B|].
  eexists. split.
  - apply contains_skip. rewrite (app_assoc _ (map _ _)). rewrite (app_assoc (_ ++ map _ _) lines). apply contains_here.
  - eexists _, _, _. split; [reflexivity|]. split.
    + apply says_blank. eapply says_space'; [apply says_pad_right, (label_says "Pressure"); [reflexivity|discriminate|discriminate|exact Up]| |reflexivity].
      eapply says_space'; [apply says_center, volume_label|apply says_center, energy_label|reflexivity].
    + apply rows_say. intros i. eexists. split; [reflexivity|apply table_line].
Qed.

(** ** C88 *)
(** Without an equation of state: the volumes and energies of the input, and the
    pressure at each of them, minus the slope of the energy in the unit shown. *)
Theorem C88_input h de dv dp :
  eos_on s = false -> meaning (ep_energy_units K) (lower (eunit s)) = Some de -> meaning (ep_volume_units K) (lower (vunit s)) = Some dv ->
  meaning pressure_units (lower (punit s)) = Some dp ->
  2 <= nvol x -> distinct_values (nvol x) (volume x) ->
  exists text, report h = Ok text /\ contains text ["Job: " +++ job h] /\
  (exists ls, contains text ("System:" :: ls) /\ system_block h (nvol x) (Ztrunc (IZR (natoms h * 3) * total_q_points x)) ls) /\
  exists ls, contains text ls /\
    table_block (with_unit "Pressure" (punit s) ++ with_unit "Volume" (vunit s +++ "^3") ++ with_unit "Energy" (eunit s)) (nvol x)
      (fun i cs => exists t, slope_at (nvol x) (static_energy x) (volume x) i t /\
        cs = [Decimals 3 (- (t * fst de / fst dv) / fst dp)%R; Decimals 6 (volume x i); Digits 12 (static_energy x i)]) ls.
Proof.
  intros Off Me Mv Mp N D.
  destruct (np_gradient (nvol x) (static_energy x) (volume x)) as [g|] eqn:G; [|unfold np_gradient in G; destruct (Nat.ltb_spec (nvol x) 2); [lia|discriminate]].
  assert (EC : exists c, conversion (fun e => energy_to_pressure K e (eunit s) (vunit s) (punit s)) = Ok c /\ forall e, c e = (e * fst de / fst dv / fst dp)%R).
  { unfold conversion. rewrite e2p_value, Me, Mv, Mp. eexists. split; [reflexivity|]. intros e. cbv beta. now rewrite e2p_value, Me, Mv, Mp. }
  destruct EC as (c & EC & SC).
  assert (IP : input_pressures K eos_fit float_text s x = Ok ((fun i => (- c (g i))%R), [])).
  { unfold input_pressures. rewrite Off, G. cbn [bind]. rewrite EC. reflexivity. }
  destruct (report_table h _ _ IP) as (text & E & J & S0 & ls & C & head & bar & rows & -> & HS & RS). exists text. split; [exact E|]. split; [exact J|]. split; [exact S0|].
  rewrite app_nil_r in C. exists (head :: bar :: rows). split; [exact C|]. exists head, bar, rows. split; [reflexivity|]. split; [exact HS|].
  assert (HIn : List.Forall (fun i => i < nvol x) (seq 0 (nvol x))) by (apply Forall_forall; intros i Hi; apply in_seq in Hi; lia).
  clear - RS HIn G D SC. induction RS as [|i l il ls (cs & -> & HL) RS IH]; [constructor|]. inversion HIn as [|? ? Hi HIn']; subst. constructor; [|now apply IH].
  eexists. split; [|exact HL]. exists (g i). split; [now apply gradient_slope|]. rewrite SC. do 2 f_equal. unfold Rdiv. ring.
Qed.
(** The report warns exactly when the acoustic branches are asked for with phonons
    beyond the Gamma point. *)
Definition warning (l : string) : bool := String.prefix "WARNING!" l.
Lemma concise_quiet l v e t : concise float_text l v e = Ok t -> (forall r, warning (l +++ r) = false) -> warning t = false.
Proof.
  intros H Q. unfold concise in H. destruct e as [e| |]; [|injection H as <-; apply Q|discriminate H].
  destruct (Rlt_bool e 0); [discriminate H|]. destruct (Req_bool e 0); injection H as <-; apply Q.
Qed.
Theorem C88_warning h text : report h = Ok text ->
  (List.Exists (fun l => warning l = true) text <-> (1 < kpoints h)%Z /\ kieffer_on s = true).
Proof.
  unfold report_input. destruct (input_pressures K eos_fit float_text s x) as [[ps pl]|ex] eqn:IP; [|discriminate 1]. cbn [bind]. intros H. match type of H with Ok ?a = _ => assert (EQ : a = text) by congruence end. subst text. clear H.
  assert (Q : List.Forall (fun l => warning l = false) pl).
  { unfold input_pressures in IP. destruct (eos_on s).
    - destruct (eos_fit _ _ _ _) as [[[[[e0 k0] k1] v0] [[[se sk] sk1] sv]]|]; [|discriminate IP]. cbn [bind] in IP.
      destruct (e2p K s k0) as [k|]; [|discriminate IP]. cbn [bind] in IP.
      destruct (scale_shown _ sk) as [sk'|]; [|discriminate IP]. cbn [bind] in IP.
      destruct (pressure _ _ _ _ _ 0%R); [|discriminate IP].
      destruct (each _ _) as [lines|] eqn:E; [|discriminate IP]. cbn [bind] in IP. injection IP as _ <-.
      constructor; [reflexivity|]. constructor; [reflexivity|]. cbn [each] in E.
      destruct (concise float_text "E0" e0 se) as [a|] eqn:Ea; [|discriminate E]. cbn [bind] in E.
      destruct (concise float_text "K0" k sk') as [b|] eqn:Eb; [|discriminate E]. cbn [bind] in E.
      destruct (concise float_text "K'" k1 sk1) as [c|] eqn:Ec; [|discriminate E]. cbn [bind] in E.
      destruct (concise float_text "V0" v0 sv) as [d|] eqn:Ed; [|discriminate E]. cbn [bind] in E. injection E as <-.
      repeat constructor; eapply concise_quiet; try eassumption; reflexivity.
    - destruct (np_gradient _ _ _); [|discriminate IP]. cbn [bind] in IP. destruct (conversion _); [|discriminate IP]. cbn [bind] in IP. injection IP as _ <-. constructor. }
  assert (T : List.Forall (fun l => warning l = false) (system_lines h x)) by (repeat (constructor; [reflexivity|]); constructor).
  rewrite Exists_app. split.
  - intros [E|E]; [exfalso; rewrite Exists_exists in E; rewrite Forall_forall in T; destruct E as (l & I & W); rewrite (T _ I) in W; discriminate W|].
    rewrite !Exists_app in E. destruct E as [E|[E|[E|[E|[E|E]]]]].
    + inversion E as [? ? W|? ? E']; subst; [discriminate W|]. inversion E' as [? ? W|? ? E'']; subst; [discriminate W|inversion E''].
    + rewrite Exists_exists in E. destruct E as (l & I & W). apply in_map_iff in I as (i & <- & _). discriminate W.
    + exfalso. rewrite Exists_exists in E. rewrite Forall_forall in Q. destruct E as (l & I & W). rewrite (Q _ I) in W. discriminate W.
    + inversion E as [? ? W|? ? E']; subst; [discriminate W|inversion E'].
    + unfold kieffer_warning in E. destruct (Z.ltb_spec 1 (kpoints h)); cbn [andb] in E; [|inversion E]. destruct (kieffer_on s); [tauto|inversion E].
    + inversion E as [? ? W|? ? E']; subst; [discriminate W|inversion E'].
  - intros (A & B). right. rewrite !Exists_app. do 4 right. left. unfold kieffer_warning. apply Z.ltb_lt in A. rewrite A, B. left. reflexivity.
Qed.
(** A single volume has no slope. *)
Theorem C88_one_volume_refuted h : eos_on s = false -> nvol x < 2 -> report h = Raises "ValueError".
Proof. intros Off N. unfold report_input, input_pressures. rewrite Off. unfold np_gradient. apply Nat.ltb_lt in N. rewrite N. reflexivity. Qed.

(** With an equation of state *)
Lemma pressure_scale tag e0 c k0 k1 v0 V : pressure tag e0 (c * k0)%R k1 v0 V = option_map (Rmult c) (pressure tag e0 k0 k1 v0 V).
Proof.
  unfold pressure, set_pv_eos_type. destruct (tag =? "murnaghan")%string; [|destruct (tag =? "birchmurnaghan")%string; [|destruct (tag =? "vinet")%string; [|destruct (tag =? "pouriertarantola")%string; [|reflexivity]]]]; cbn [option_map]; f_equal.
  - unfold PvEosModel.murnaghan. cbn. unfold Rdiv. ring.
  - unfold PvEosModel.birch_murnaghan, PvEosModel.bm_pars, PvEosModel.second_order. cbn [andb PvEosModel.K0 PvEosModel.K1 PvEosModel.K2 PvEosModel.V0 snd]. ring.
  - unfold PvEosModel.vinet, PvEosModel.vinet_pars, PvEosModel.second_order. cbn [andb PvEosModel.set_K2 PvEosModel.K0 PvEosModel.K1 PvEosModel.K2 PvEosModel.V0 snd]. ring.
  - unfold PvEosModel.natural_strain, PvEosModel.ns_pars, PvEosModel.second_order. cbn [andb PvEosModel.K0 PvEosModel.K1 PvEosModel.K2 PvEosModel.V0 snd]. ring.
Qed.
Section Eos.
Variables (de dv dp : R * R) (e0 k0 k1 v0 : R) (se sk sk1 sv : shown).
Hypothesis On : eos_on s = true.
Hypothesis Me : meaning (ep_energy_units K) (lower (eunit s)) = Some de.
Hypothesis Mv : meaning (ep_volume_units K) (lower (vunit s)) = Some dv.
Hypothesis Mp : meaning pressure_units (lower (punit s)) = Some dp.
(** The four parameters fitted to the static energies, and their standard errors *)
Hypothesis Fit : eos_fit (eos_function s) (nvol x) (volume x) (fun k => (static_energy x k + 0 * volume x k)%R) = Ok ((e0, k0, k1, v0), (se, sk, sk1, sv)).
Definition in_unit (p : R) : R := (p * fst de / fst dv / fst dp)%R.
Definition shown_in_unit (p : shown) : shown := match p with Fin y => Fin (in_unit y) | _ => p end.
Definition parameter (line : string) (label : string) (v : R) (e : shown) : Prop := concise float_text label v e = Ok line.

Lemma eos_report h form a b c d : set_eos_type (eos_function s) = Some form ->
  parameter a "E0" e0 se -> parameter b "K0" (in_unit k0) (shown_in_unit sk) -> parameter c "K'" k1 sk1 -> parameter d "V0" v0 sv ->
  exists text, report h = Ok text /\ exists ls, contains text (ls ++ [""; "EoS fitting parameters for static energy vs volume data:"; a; b; c; d]) /\
    table_block (with_unit "Pressure" (punit s) ++ with_unit "Volume" (vunit s +++ "^3") ++ with_unit "Energy" (eunit s)) (nvol x)
      (fun i cs => exists p, pressure (eos_function s) e0 k0 k1 v0 (volume x i) = Some p /\ cs = [Decimals 3 (in_unit p); Decimals 6 (volume x i); Digits 12 (static_energy x i)]) ls.
Proof.
  intros EF A B C D. unfold parameter in *.
  assert (KN : forall V, exists p, pressure (eos_function s) e0 k0 k1 v0 V = Some p).
  { intros V. unfold pressure. unfold set_eos_type in EF. unfold set_pv_eos_type. destruct (eos_function s =? "murnaghan")%string; [eexists; reflexivity|].
    destruct (eos_function s =? "birchmurnaghan")%string; [eexists; reflexivity|]. destruct (eos_function s =? "vinet")%string; [eexists; reflexivity|].
    destruct (eos_function s =? "pouriertarantola")%string; [eexists; reflexivity|discriminate]. }
  assert (EP : forall V p, pressure (eos_function s) e0 k0 k1 v0 V = Some p -> pressure (eos_function s) e0 (in_unit k0) k1 v0 V = Some (in_unit p)).
  { intros V p H. replace (in_unit k0) with (in_unit 1 * k0)%R by (unfold in_unit, Rdiv; ring). rewrite pressure_scale, H. cbn. f_equal. unfold in_unit, Rdiv. ring. }
  assert (E2P : forall e, e2p K s e = Ok (in_unit e)) by (intros e; unfold e2p; now rewrite e2p_value, Me, Mv, Mp).
  assert (IP : input_pressures K eos_fit float_text s x = Ok ((fun i => match pressure (eos_function s) e0 (in_unit k0) k1 v0 (volume x i) with Some p => p | None => 0%R end),
     [""; "EoS fitting parameters for static energy vs volume data:"; a; b; c; d])).
  { unfold input_pressures. rewrite On, Fit. cbn [bind]. rewrite E2P. cbn [bind].
    assert (SS : scale_shown (e2p K s) sk = Ok (shown_in_unit sk)) by (destruct sk; cbn [scale_shown shown_in_unit]; [rewrite E2P; reflexivity|reflexivity|reflexivity]).
    rewrite SS. cbn [bind]. destruct (KN 0%R) as (p & Hp). rewrite (EP _ _ Hp). cbn [each]. rewrite A, B, C, D. reflexivity. }
  destruct (report_table h _ _ IP) as (text & E & _ & _ & ls & CT & head & bar & rows & -> & HS & RS). exists text. split; [exact E|].
  exists (head :: bar :: rows). split; [exact CT|]. exists head, bar, rows. split; [reflexivity|]. split; [exact HS|].
  clear - RS KN EP. induction RS as [|i l il ls (cs & -> & HL) RS IH]; constructor; [|exact IH].
  eexists. split; [|exact HL]. destruct (KN (volume x i)) as (p & Hp). exists p. split; [exact Hp|]. now rewrite (EP _ _ Hp).
Qed.
(** Murnaghan and Vinet: the pressures are minus the derivative of the fitted
    energy, and below stand the parameters with K0 as a pressure. *)
Theorem C88_input_eos h form a b c d : set_eos_type (eos_function s) = Some form ->
  eos_function s = "murnaghan" \/ eos_function s = "vinet" -> (0 < v0)%R -> k1 <> 0%R -> k1 <> 1%R -> (forall i, i < nvol x -> (0 < volume x i)%R) ->
  parameter a "E0" e0 se -> parameter b "K0" (in_unit k0) (shown_in_unit sk) -> parameter c "K'" k1 sk1 -> parameter d "V0" v0 sv ->
  exists text, report h = Ok text /\ exists ls, contains text (ls ++ [""; "EoS fitting parameters for static energy vs volume data:"; a; b; c; d]) /\
    table_block (with_unit "Pressure" (punit s) ++ with_unit "Volume" (vunit s +++ "^3") ++ with_unit "Energy" (eunit s)) (nvol x)
      (fun i cs => exists t, is_derive (fun V => form V e0 k0 k1 v0) (volume x i) t /\
         cs = [Decimals 3 (- (t * fst de / fst dv) / fst dp)%R; Decimals 6 (volume x i); Digits 12 (static_energy x i)]) ls.
Proof.
  intros EF TG Hv H0 H1 PV A B C D. destruct (eos_report h form a b c d EF A B C D) as (text & E & ls & CT & head & bar & rows & -> & HS & RS).
  exists text. split; [exact E|]. exists (head :: bar :: rows). split; [exact CT|]. exists head, bar, rows. split; [reflexivity|]. split; [exact HS|].
  assert (HIn : List.Forall (fun i => i < nvol x) (seq 0 (nvol x))) by (apply Forall_forall; intros i Hi; apply in_seq in Hi; lia).
  clear - RS HIn PV TG Hv H0 H1 EF. induction RS as [|i l il ls (cs & (p & Ep & ->) & HL) RS IH]; [constructor|]. inversion HIn as [|? ? Hi HIn']; subst. constructor; [|now apply IH].
  eexists. split; [|exact HL]. destruct (C19_pressure_consistent (eos_function s) form e0 k0 k1 v0 (volume x i) TG Hv (PV i Hi) H0 H1 EF) as (p' & Ep' & DV).
  rewrite Ep in Ep'. injection Ep' as <-. exists (- p)%R. split; [exact DV|]. do 2 f_equal. unfold in_unit, Rdiv. ring.
Qed.
(** Birch-Murnaghan and Poirier-Tarantola: away from V0 they are not; compressed
    volumes show a pressure that is too high, expanded ones one that is too low. *)
Theorem C88_input_eos_refuted h form a b c d : set_eos_type (eos_function s) = Some form ->
  eos_function s = "birchmurnaghan" \/ eos_function s = "pouriertarantola" -> (0 < v0)%R -> (0 < k0)%R -> (0 < fst de)%R -> (0 < fst dv)%R -> (0 < fst dp)%R -> (forall i, i < nvol x -> (0 < volume x i)%R) ->
  parameter a "E0" e0 se -> parameter b "K0" (in_unit k0) (shown_in_unit sk) -> parameter c "K'" k1 sk1 -> parameter d "V0" v0 sv ->
  exists text, report h = Ok text /\ exists ls, contains text (ls ++ [""; "EoS fitting parameters for static energy vs volume data:"; a; b; c; d]) /\
    table_block (with_unit "Pressure" (punit s) ++ with_unit "Volume" (vunit s +++ "^3") ++ with_unit "Energy" (eunit s)) (nvol x)
      (fun i cs => exists p, cs = [Decimals 3 p; Decimals 6 (volume x i); Digits 12 (static_energy x i)] /\
         forall t, is_derive (fun V => form V e0 k0 k1 v0) (volume x i) t ->
           (volume x i < v0 -> - (t * fst de / fst dv) / fst dp < p)%R /\ (v0 < volume x i -> p < - (t * fst de / fst dv) / fst dp)%R) ls.
Proof.
  intros EF TG Hv Hk P1 P2 P3 PV A B C D. destruct (eos_report h form a b c d EF A B C D) as (text & E & ls & CT & head & bar & rows & -> & HS & RS).
  exists text. split; [exact E|]. exists (head :: bar :: rows). split; [exact CT|]. exists head, bar, rows. split; [reflexivity|]. split; [exact HS|].
  assert (HIn : List.Forall (fun i => i < nvol x) (seq 0 (nvol x))) by (apply Forall_forall; intros i Hi; apply in_seq in Hi; lia).
  clear - RS HIn PV TG Hv Hk EF P1 P2 P3. induction RS as [|i l il ls (cs & (p & Ep & ->) & HL) RS IH]; [constructor|]. inversion HIn as [|? ? Hi HIn']; subst. constructor; [|now apply IH].
  eexists. split; [|exact HL]. exists (in_unit p). split; [reflexivity|]. intros t DT.
  assert (Q : (0 < fst de / fst dv / fst dp)%R) by (apply Rdiv_lt_0_compat; [apply Rdiv_lt_0_compat|]; assumption).
  assert (Y : forall y, (- (y * fst de / fst dv) / fst dp = - y * (fst de / fst dv / fst dp))%R) by (intros; unfold Rdiv; ring).
  assert (Y' : in_unit p = (p * (fst de / fst dv / fst dp))%R) by (unfold in_unit, Rdiv; ring). rewrite Y, Y'.
  split; intros LV; (assert (NV : volume x i <> v0) by lra);
    destruct (C19_pressure_inconsistent (eos_function s) form e0 k0 k1 v0 (volume x i) p t TG Hv (PV i Hi) Hk NV EF DT Ep) as (_ & X & Z); apply Rmult_lt_compat_r; auto.
Qed.
(** A standard error that the fit could not determine (nan) stops the program. *)
Theorem C88_nan_error_refuted h form : set_eos_type (eos_function s) = Some form ->
  In Nan [se; sk; sk1; sv] -> (forall e, In (Fin e) [se; sk; sk1; sv] -> 0 <= e)%R -> (0 < fst de)%R -> (0 < fst dv)%R -> (0 < fst dp)%R -> report h = Raises "ValueError".
Proof.
  intros EF NN PE P1 P2 P3.
  assert (KN : exists p, pressure (eos_function s) e0 (in_unit k0) k1 v0 0 = Some p).
  { unfold pressure. unfold set_eos_type in EF. unfold set_pv_eos_type. destruct (eos_function s =? "murnaghan")%string; [eexists; reflexivity|].
    destruct (eos_function s =? "birchmurnaghan")%string; [eexists; reflexivity|]. destruct (eos_function s =? "vinet")%string; [eexists; reflexivity|].
    destruct (eos_function s =? "pouriertarantola")%string; [eexists; reflexivity|discriminate]. }
  assert (E2P : forall e, e2p K s e = Ok (in_unit e)) by (intros e; unfold e2p; now rewrite e2p_value, Me, Mv, Mp).
  assert (SS : scale_shown (e2p K s) sk = Ok (shown_in_unit sk)) by (destruct sk; cbn [scale_shown shown_in_unit]; [rewrite E2P; reflexivity|reflexivity|reflexivity]).
  assert (CN : forall l v e, (forall y, e = Fin y -> 0 <= y)%R -> e <> Nan -> exists t, concise float_text l v e = Ok t).
  { intros l v e P N. destruct e as [y| |]; [|eexists; reflexivity|contradiction]. unfold concise. specialize (P y eq_refl).
    destruct (Rlt_bool y 0) eqn:Z; [exfalso|destruct (Req_bool y 0); eexists; reflexivity]. revert Z. case Raux.Rlt_bool_spec; [lra|discriminate]. }
  assert (SN : shown_in_unit sk = Nan <-> sk = Nan) by (destruct sk; cbn; split; congruence).
  assert (PK : forall y, shown_in_unit sk = Fin y -> (0 <= y)%R).
  { intros y. destruct sk as [z| |] eqn:Q; cbn; try discriminate. intros [= <-]. pose proof (PE z ltac:(cbn; auto)) as G. unfold in_unit.
    apply Rmult_le_pos; [apply Rmult_le_pos; [apply Rmult_le_pos; lra|]|]; apply Rlt_le, Rinv_0_lt_compat; assumption. }
  unfold report_input, input_pressures. rewrite On, Fit. cbn [bind]. rewrite E2P. cbn [bind]. rewrite SS. cbn [bind]. destruct KN as (p & ->).
  assert (SH : forall e : shown, e = Nan \/ e <> Nan) by (intros []; [right; discriminate|right; discriminate|now left]).
  assert (EN : each (fun '(l, v, e) => concise float_text l v e) [("E0", e0, se); ("K0", in_unit k0, shown_in_unit sk); ("K'", k1, sk1); ("V0", v0, sv)] = Raises "ValueError").
  { cbn [each]. destruct (SH se) as [->|N1]; [reflexivity|]. destruct (CN "E0" e0 se ltac:(intros y ->; apply PE; cbn; auto) N1) as (t1 & ->). cbn [bind].
    destruct (SH sk) as [->|N2]; [reflexivity|]. destruct (CN "K0" (in_unit k0) (shown_in_unit sk) PK ltac:(now rewrite SN)) as (t2 & ->). cbn [bind].
    destruct (SH sk1) as [->|N3]; [reflexivity|]. destruct (CN "K'" k1 sk1 ltac:(intros y ->; apply PE; cbn; auto) N3) as (t3 & ->). cbn [bind].
    destruct (SH sv) as [->|N4]; [reflexivity|]. exfalso. cbn in NN. intuition congruence. }
  rewrite EN. reflexivity.
Qed.
End Eos.
End Report.

Print Assumptions C88_input.
Print Assumptions C88_warning.
Print Assumptions C88_one_volume_refuted.
Print Assumptions C88_input_eos.
Print Assumptions C88_input_eos_refuted.
Print Assumptions C88_nan_error_refuted.
