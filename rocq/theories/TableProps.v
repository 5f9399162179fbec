(** C63: tables exported from (quasi-)harmonic result files. *)
From Coq Require Import Reals String Ascii List Bool Arith ZArith Lia Lra.
From Flocq Require Import Core.
From Verif Require Import Py DecimalModel DecimalProofs FormatModel FormatProofs YamlSpec QhaWriterProofs ThermoModel UnitsModel TableModel TableProofs QhaRunModel QhaRunProps2 StoreModel.
Import ListNotations.
Open Scope string_scope.
Open Scope list_scope.
Open Scope nat_scope.

(** * Reading a table *)
(** The numbers on a line, separated by blanks. *)
Definition number_of (f : option fl) : option R := match f with Some (Num v) => Some v | _ => None end.
Fixpoint all_some {A} (l : list (option A)) : option (list A) :=
  match l with
  | [] => Some []
  | Some a :: l => match all_some l with Some r => Some (a :: r) | None => None end
  | None :: _ => None
  end.
Definition numbers (line : string) : option (list R) := all_some (map (fun w => number_of (parse_float w)) (split line)).
(** A line shows numbers satisfying the given conditions, one each, in order. *)
Definition shows (line : string) (cs : list (R -> Prop)) : Prop :=
  exists vs, numbers line = Some vs /\ Forall2 (fun c v => c v) cs vs.
(** The precision of the tables: volumes, bulk moduli and their derivative with 8
    decimals, everything else with 12 digits after the first one. *)
Definition precision (name : string) (x v : R) : Prop :=
  if mem name ["VT"; "KT"; "KS"; "Kp"] then rounded 8 x v else rounded_sig 12 x v.
Definition qha_names : list string :=
  ["Uzp"; "Uth"; "Utot"; "S"; "Fvib"; "F"; "Cv"; "VT"; "Cp"; "Cp-Cv"; "KT"; "KS"; "Kp"; "H"; "G"; "alphaV"; "gruneisen"].
Definition ha_names : list string := ["Uth"; "Utot"; "S"; "Fvib"; "F"; "Cv"].
Definition unit_says (adimensional : bool) (u line : string) : Prop :=
  line = if (adimensional && String.eqb u "")%bool then "Adimensional data" else "Data in " +++ u +++ " units".
(** The head of a table: the names and units of the two variables. *)
Definition head_says (a b line : string) : Prop := exists l m r, line = spaces l +++ a +++ spaces m +++ b +++ spaces r.

(** The text of a complete table of m: a title, the unit, the heads, a line of
    columns values and one line per temperature. *)
Definition is_table (text : string) (adimensional : bool) (T : list R) (th : string) (y : list R) (yh : string) (m : list (list R)) (name u : string) : Prop :=
  exists title unitline top head ys bar body,
    lines text = ["*- This file was created using Quantas -*"; ""; title; unitline; ""; top; head; ys; bar] ++ body ++ [bar] /\
    unit_says adimensional u unitline /\ head_says th yh head /\
    shows ys (map (rounded 8) y) /\
    List.length body = List.length T /\
    forall i, i < List.length T -> shows (nth i body "") (rounded 2 (nth i T 0%R) :: map (precision name) (nth i m [])).

(** ** Lemmas *)
Lemma all_some_map l (g : string -> R) : Forall (fun w => number_of (parse_float w) = Some (g w)) l -> all_some (map (fun w => number_of (parse_float w)) l) = Some (map g l).
Proof. induction 1 as [|w l E _ IH]; [reflexivity|]. cbn [map all_some]. now rewrite E, IH. Qed.
Lemma numbers_row line l st pre v : split line = pre ++ map (number st) l -> all_some (map (fun w => number_of (parse_float w)) pre) = Some v ->
  numbers line = Some (v ++ map (number_value st) l).
Proof.
  intros E P. unfold numbers. rewrite E. clear E. revert v P. induction pre as [|w pre IH]; intros v P; cbn [app map all_some] in P |- *.
  - injection P as <-. cbn [app]. induction l as [|x l IHl]; [reflexivity|]. cbn [map all_some]. rewrite parse_number_text. cbn [number_of]. now rewrite IHl.
  - destruct (number_of (parse_float w)) as [r|]; [|discriminate]. destruct (all_some (map _ pre)) as [q|]; [|discriminate].
    injection P as <-. now rewrite (IH q eq_refl).
Qed.
Lemma trailing : blank_head " ". Proof. right. now exists "". Qed.
Lemma split_blank : split " " = []. Proof. reflexivity. Qed.
Lemma shows_row t xst zst r : shows (row_line t xst zst r) (as_printed xst t :: map (as_printed zst) r).
Proof.
  exists (number_value xst t :: map (number_value zst) r). split.
  - apply (numbers_row _ r zst [number xst t] [number_value xst t]).
    + unfold row_line. rewrite split_data.
      * rewrite split_row by apply trailing. now rewrite split_blank, app_nil_r.
      * destruct r as [|x r]; [apply trailing|]. cbn [concat_map fold_right]. rewrite append_assoc. apply put_data_head.
    + cbn [map all_some]. now rewrite parse_number_text.
  - constructor; [apply number_rounded|]. induction r; constructor; [apply number_rounded|assumption].
Qed.
Lemma shows_axis l st : shows (put_blank +++ concat_map (fun p => put_data p st) l +++ " ") (map (as_printed st) l).
Proof.
  exists (map (number_value st) l). split.
  - apply (numbers_row _ l st [] []); [|reflexivity]. change put_blank with (spaces 11). rewrite split_spaces, split_row by apply trailing.
    now rewrite split_blank, app_nil_r.
  - induction l; constructor; [apply number_rounded|assumption].
Qed.
Lemma row_lines_length x xst zst m : List.length m = List.length x -> List.length (row_lines x xst zst m) = List.length x.
Proof. revert m. induction x as [|t x IH]; intros [|r m] L; try discriminate L; [reflexivity|]. cbn [row_lines List.length]. f_equal. apply IH. now injection L. Qed.
Lemma row_lines_nth x xst zst m i : List.length m = List.length x -> i < List.length x ->
  nth i (row_lines x xst zst m) "" = row_line (nth i x 0%R) xst zst (nth i m []).
Proof.
  revert m i. induction x as [|t x IH]; intros [|r m] i L H; cbn [List.length] in *; try lia. destruct i as [|i]; [reflexivity|].
  cbn [row_lines nth]. apply IH; lia.
Qed.
Lemma spaces_app a b s : spaces a +++ spaces b +++ s = spaces (a + b) +++ s.
Proof. induction a as [|a IH]; [reflexivity|]. cbn [spaces Nat.add String.append]. now rewrite IH. Qed.
Lemma spaces_join a b : spaces a +++ spaces b = spaces (a + b).
Proof. rewrite <- (append_nil (spaces b)), spaces_app. apply append_nil. Qed.
Lemma head_shape a b p q p' q' :
  " " +++ (spaces p +++ a +++ spaces q) +++ " " +++ (spaces p' +++ b +++ spaces q') +++ " " = spaces (S p) +++ a +++ spaces (q + S p') +++ b +++ spaces (q' + 1).
Proof.
  rewrite !append_assoc. rewrite <- (spaces_join q' 1), <- (spaces_app q (S p')). reflexivity.
Qed.
Lemma head_ok w a b : head_says a b (header w a b).
Proof. unfold header, center. eexists _, _, _. apply head_shape. Qed.

Section General.
Variables (types : string -> option kind) (adim : bool) (x : list R) (xname xunit : string) (y : list R) (yname yunit : string).
Variables (m : list (list R)) (zname zunit : string) (kz kx ky : kind).
Hypothesis Hz : types zname = Some kz.
Hypothesis Hx : types xname = Some kx.
Hypothesis Hy : types yname = Some ky.
Hypothesis Ny : y <> [].
Hypothesis Lm : List.length m = List.length x.
Hypothesis Fm : Forall (fun r => List.length r = List.length y) m.
Hypothesis N1 : no_newline zunit.
Hypothesis N2 : no_newline (desc kz).
Hypothesis N3 : no_newline (label kx xunit).
Hypothesis N4 : no_newline (label ky yunit).
Hypothesis X2 : numstyle kx = Ttype.
Hypothesis Y8 : numstyle ky = Vtype \/ numstyle ky = Ptype.
Hypothesis Zp : forall a v, as_printed (numstyle kz) a v -> precision zname a v.
Lemma lines_written : lines (fst (write types adim x xname xunit y yname yunit (Mat m) zname zunit)) =
  frame types adim xunit y yunit zunit kz kx ky (row_lines x (numstyle kx) (numstyle kz) m).
Proof. rewrite (write_written _ _ _ _ _ _ _ _ _ _ _ _ _ _ Hz Hx Hy Ny Lm Fm). cbn [fst]. apply frame_lines; try assumption. apply no_newline_rows. Qed.
Lemma shows_weaken line cs ds : shows line cs -> Forall2 (fun (c d : R -> Prop) => forall v, c v -> d v) cs ds -> shows line ds.
Proof.
  intros (vs & E & F) W. exists vs. split; [exact E|]. clear E. revert ds W. induction F as [|c v cs vs H _ IH]; intros ds W; inversion W; subst; constructor; auto.
Qed.
Lemma weaken_map (f g : R -> R -> Prop) l : (forall a v, f a v -> g a v) -> Forall2 (fun (c d : R -> Prop) => forall v, c v -> d v) (map f l) (map g l).
Proof. intros H. induction l; constructor; auto. Qed.
Lemma table_ok : let w := write types adim x xname xunit y yname yunit (Mat m) zname zunit in
  snd w = Done /\ is_table (fst w) adim x (label kx xunit) y (label ky yunit) m zname zunit.
Proof.
  cbv zeta. split; [now rewrite (write_written _ _ _ _ _ _ _ _ _ _ _ _ _ _ Hz Hx Hy Ny Lm Fm)|].
  unfold is_table. rewrite lines_written. unfold frame. destruct (calc_space (List.length y)) as [totw dataw].
  eexists _, _, _, _, _, _, _. split; [reflexivity|]. split; [reflexivity|]. split; [apply head_ok|]. split; [|split].
  - eapply shows_weaken; [apply shows_axis|]. apply weaken_map. intros a v. destruct Y8 as [-> | ->]; exact (fun H => H).
  - now apply row_lines_length.
  - intros i Hi. rewrite row_lines_nth by assumption. eapply shows_weaken; [apply shows_row|]. rewrite X2. constructor; [intros v H; exact H|]. now apply weaken_map.
Qed.
End General.
Lemma qha_name_kind name : In name qha_names -> exists k, qha_types name = Some k /\ forall a v, as_printed (numstyle k) a v -> precision name a v.
Proof.
  intros H. repeat (destruct H as [<-|H]; [eexists; split; [reflexivity|intros a v E; exact E]|]). destruct H.
Qed.
Lemma ha_name_kind name : In name ("Uzp" :: ha_names) -> exists k, ha_types name = Some k /\ forall a v, as_printed (numstyle k) a v -> precision name a v.
Proof.
  intros H. repeat (destruct H as [<-|H]; [eexists; split; [reflexivity|intros a v E; exact E]|]). destruct H.
Qed.

(** * The tables *)
(** Every property of a QHA calculation gives a complete table. *)
Theorem C63_qha_table T P m name tu pu u :
  In name qha_names -> P <> [] -> List.length m = List.length T -> Forall (fun r => List.length r = List.length P) m ->
  no_newline tu -> no_newline pu -> no_newline u ->
  let w := write qha_types true T "T" tu P "P" pu (Mat m) name u in
  snd w = Done /\ is_table (fst w) true T ("T (" +++ tu +++ ")") P ("P (" +++ pu +++ ")") m name u.
Proof.
  intros HN NP L Fm Ht Hp Hu. destruct (qha_name_kind name HN) as (k & Ek & Pk). cbv zeta.
  apply (table_ok qha_types true T "T" tu P "P" pu m name u k (mk "Temperature" "T" Ttype) (mk "Pressure" "P" Ptype)); try assumption; try reflexivity.
  - now apply qha_kind in Ek.
  - apply no_newline_label; [reflexivity|reflexivity|assumption].
  - apply no_newline_label; [reflexivity|reflexivity|assumption].
  - now right.
Qed.
Theorem C63_ha_table T V m name tu vu u :
  In name ("Uzp" :: ha_names) -> V <> [] -> List.length m = List.length T -> Forall (fun r => List.length r = List.length V) m ->
  no_newline tu -> no_newline vu -> no_newline u ->
  let w := write ha_types false T "T" tu V "V" vu (Mat m) name u in
  snd w = Done /\ is_table (fst w) false T ("T (" +++ tu +++ ")") V ("V (" +++ vu +++ "^3)") m name u.
Proof.
  intros HN NP L Fm Ht Hp Hu. destruct (ha_name_kind name HN) as (k & Ek & Pk). cbv zeta.
  apply (table_ok ha_types false T "T" tu V "V" vu m name u k (mk "Temperature" "T" Ttype)
    {| desc := "Volume"; label := labelled "V (" "^3)"; numstyle := Vtype |}); try assumption; try reflexivity.
  - now apply ha_kind in Ek.
  - apply no_newline_label; [reflexivity|reflexivity|assumption].
  - apply no_newline_label; [reflexivity|reflexivity|assumption].
  - now left.
Qed.
(** The third line tells which property it is. *)
Definition title_line (text : string) : string := nth 2 (lines text) "".
Theorem C63_titles T P m name T' P' m' name' tu pu u tu' pu' u' :
  In name qha_names -> In name' qha_names -> name <> name' ->
  P <> [] -> List.length m = List.length T -> Forall (fun r => List.length r = List.length P) m ->
  P' <> [] -> List.length m' = List.length T' -> Forall (fun r => List.length r = List.length P') m' ->
  Forall no_newline [tu; pu; u; tu'; pu'; u'] ->
  title_line (fst (write qha_types true T "T" tu P "P" pu (Mat m) name u)) <> title_line (fst (write qha_types true T' "T" tu' P' "P" pu' (Mat m') name' u')).
Proof.
  intros H H' D NP L Fm NP' L' Fm' Hu.
  assert (U : forall w, In w [tu; pu; u; tu'; pu'; u'] -> no_newline w) by now apply Forall_forall.
  assert (X : forall T P m n tu pu u, In n qha_names -> P <> [] -> List.length m = List.length T -> Forall (fun r => List.length r = List.length P) m ->
     no_newline tu -> no_newline pu -> no_newline u ->
     exists k, qha_types n = Some k /\ title_line (fst (write qha_types true T "T" tu P "P" pu (Mat m) n u)) = desc k).
  { clear. intros T P m n tu pu u H NP L Fm Ht Hp Hu. destruct (qha_name_kind n H) as (k & Ek & Pk). exists k. split; [exact Ek|].
    unfold title_line. rewrite (lines_written qha_types true T "T" tu P "P" pu m n u k (mk "Temperature" "T" Ttype) (mk "Pressure" "P" Ptype)); try assumption; try reflexivity.
    - now apply qha_kind in Ek.
    - apply no_newline_label; [reflexivity|reflexivity|assumption].
    - apply no_newline_label; [reflexivity|reflexivity|assumption]. }
  destruct (X T P m name tu pu u) as (k & Ek & ->); try assumption; try (apply U; simpl; tauto).
  destruct (X T' P' m' name' tu' pu' u') as (k' & Ek' & ->); try assumption; try (apply U; simpl; tauto).
  clear -H H' D Ek Ek'.
  assert (B : forallb (fun a => forallb (fun b => match qha_types a, qha_types b with Some k, Some k' => (negb (String.eqb (desc k) (desc k')) || String.eqb a b)%bool | _, _ => true end) qha_names) qha_names = true) by (vm_compute; reflexivity).
  rewrite forallb_forall in B. specialize (B name H). rewrite forallb_forall in B. specialize (B name' H'). rewrite Ek, Ek' in B.
  apply orb_true_iff in B as [B|B]; [apply negb_true_iff, String.eqb_neq in B; exact B|apply String.eqb_eq in B; contradiction].
Qed.

(** ** Alignment *)
(** When the numbers fit, all lines of the table proper have the same length and
    the j-th number of each line is alone in its 21 characters. *)
Definition small_T (x : R) : Prop := (-999999 <= x <= 9999999)%R.
Definition small_fixed (x : R) : Prop := (-9999999999 <= x <= 99999999999)%R.
Definition small (name : string) (x : R) : Prop :=
  if mem name ["VT"; "KT"; "KS"; "Kp"] then small_fixed x else (x = 0 \/ powerRZ 10 (-999) <= Rabs x <= powerRZ 10 998)%R.
Lemma substring_skip a b n : String.substring (String.length a) n (a +++ b) = String.substring 0 n b.
Proof. induction a as [|c a IH]; [reflexivity|exact IH]. Qed.
Lemma substring_take a b : String.substring 0 (String.length a) (a +++ b) = a.
Proof. induction a as [|c a IH]; cbn; [now destruct b|now rewrite IH]. Qed.
Lemma concat_map_split {A} (f : A -> string) l a x r : l = a ++ x :: r -> concat_map f l = concat_map f a +++ f x +++ concat_map f r.
Proof.
  intros ->. induction a as [|y a IH]; [reflexivity|]. unfold concat_map in *. cbn [app fold_right]. now rewrite IH, append_assoc.
Qed.
Lemma column st pre l j rest : String.length pre = 11 -> Forall (fits st) l -> width st = 20 -> j < List.length l ->
  String.substring (11 + 21 * j) 21 (pre +++ concat_map (fun x => put_data x st) l +++ rest) = put_data (nth j l 0%R) st.
Proof.
  intros Lp F W Hj. destruct (nth_split l 0%R Hj) as (a & r & E & <-). generalize dependent (nth (List.length a) l 0%R). intros x E.
  rewrite (concat_map_split _ l a x r E). rewrite E in F. apply Forall_app in F as (Fa & Fx). inversion Fx as [|? ? Fx' _ E1].
  pose proof (row_length a st Fa) as La. pose proof (put_data_length x st Fx') as Lx. rewrite W in La, Lx.
  rewrite !append_assoc. rewrite <- (append_assoc pre).
  replace (11 + 21 * List.length a) with (String.length (pre +++ concat_map (fun x => put_data x st) a)) by (rewrite append_length; lia).
  rewrite substring_skip. replace 21 with (String.length (put_data x st)) by lia. apply substring_take.
Qed.
Lemma alone x st : numbers (put_data x st) = Some [number_value st x].
Proof.
  apply (numbers_row _ [x] st [] []); [|reflexivity]. rewrite <- (append_nil (put_data x st)). rewrite split_data by now left. reflexivity.
Qed.
Theorem C63_qha_aligned T P m name tu pu u :
  In name qha_names -> P <> [] -> List.length m = List.length T -> Forall (fun r => List.length r = List.length P) m ->
  no_newline tu -> no_newline pu -> no_newline u ->
  Forall small_T T -> Forall small_fixed P -> Forall (Forall (small name)) m ->
  String.length tu <= 6 -> String.length pu <= 15 ->
  let text := lines (fst (write qha_types true T "T" tu P "P" pu (Mat m) name u)) in
  (forall k, 5 <= k < List.length text -> String.length (nth k text "") = 21 * List.length P + 12) /\
  (forall j, j < List.length P ->
    (exists v, numbers (String.substring (11 + 21 * j) 21 (nth 7 text "")) = Some [v] /\ rounded 8 (nth j P 0%R) v) /\
    (forall i, i < List.length T ->
      exists v, numbers (String.substring (11 + 21 * j) 21 (nth (9 + i) text "")) = Some [v] /\ precision name (nth j (nth i m []) 0%R) v)).
Proof.
  intros HN NP L Fm Ht Hp Hu ST SP SM LT LP. destruct (qha_name_kind name HN) as (k & Ek & Pk). cbv zeta.
  rewrite (lines_written qha_types true T "T" tu P "P" pu m name u k (mk "Temperature" "T" Ttype) (mk "Pressure" "P" Ptype)); try assumption; try reflexivity;
    [|now apply qha_kind in Ek|apply no_newline_label; [reflexivity|reflexivity|assumption]|apply no_newline_label; [reflexivity|reflexivity|assumption]].
  assert (Wk : width (numstyle k) = 20 /\ forall z, small name z -> fits (numstyle k) z).
  { clear -HN Ek. repeat (destruct HN as [<-|HN]; [vm_compute in Ek; injection Ek as <-; split; [reflexivity|intros z H; exact H]|]). destruct HN. }
  destruct Wk as (Wk & Fk). set (n := List.length P). assert (1 <= n) by (unfold n; destruct P; [contradiction|simpl; lia]).
  set (rs := row_lines T (numstyle (mk "Temperature" "T" Ttype)) (numstyle k) m).
  assert (Lrs : List.length rs = List.length T) by now apply row_lines_length.
  assert (Nrs : forall i, i < List.length T -> nth i rs "" = row_line (nth i T 0%R) Ttype (numstyle k) (nth i m [])) by (intros; now apply row_lines_nth).
  assert (Row : forall i, i < List.length T -> Forall (fits (numstyle k)) (nth i m []) /\ List.length (nth i m []) = n).
  { intros i Hi. assert (I : In (nth i m []) m) by (apply nth_In; lia). rewrite Forall_forall in SM, Fm. split; [|now apply Fm].
    apply Forall_impl with (2 := SM _ I). exact Fk. }
  assert (FP : Forall (fits Ptype) P) by (apply Forall_impl with (2 := SP); intros z H0; exact H0).
  assert (FT : forall i, i < List.length T -> fits Ttype (nth i T 0%R)) by (intros i Hi; rewrite Forall_forall in ST; apply ST, nth_In, Hi).
  unfold frame, calc_space. fold n. cbn [label mk labelled numstyle]. split.
  - intros q (Q1 & Q2). do 5 (destruct q as [|q]; [lia|]). cbn [app nth].
    destruct q as [|[|[|[|q]]]]; cbn [nth].
    all: try (rewrite separator_length by (unfold d_space, t_space; lia); unfold d_space, t_space; lia).
    + unfold header. rewrite !append_length. rewrite !center_length by (unfold labelled; rewrite !append_length; cbn [String.length]; unfold d_space, t_space; lia).
      cbn [String.length]. unfold d_space, t_space. lia.
    + rewrite !append_length, row_length by exact FP. cbn [width]. fold n. change (String.length put_blank) with 11. change (String.length " ") with 1. unfold d_space. lia.
    + cbn [app List.length] in Q2. rewrite app_length, Lrs in Q2. cbn [List.length] in Q2.
      destruct (Nat.lt_ge_cases q (List.length T)) as [Hq|Hq].
      * rewrite app_nth1 by lia. rewrite Nrs by exact Hq. unfold row_line. rewrite !append_length, put_data_length by now apply FT.
        destruct (Row q Hq) as (Fr & Lr). rewrite row_length by exact Fr. rewrite Lr, Wk. cbn [width String.length]. unfold t_space. lia.
      * rewrite app_nth2 by lia. replace (q - List.length rs) with 0 by lia. cbn [nth].
        rewrite separator_length by (unfold d_space, t_space; lia); unfold d_space, t_space; lia.
  - intros j Hj. split.
    + exists (number_value Ptype (nth j P 0%R)). cbn [app nth]. rewrite (column Ptype put_blank P j " ") by (reflexivity || assumption).
      split; [apply alone|apply (number_rounded Ptype)].
    + intros i Hi. remember (11 + 21 * j) as c eqn:Hc. cbn [app nth Nat.add]. rewrite Hc. rewrite app_nth1 by lia. rewrite Nrs by exact Hi. unfold row_line. destruct (Row i Hi) as (Fr & Lr).
      exists (number_value (numstyle k) (nth j (nth i m []) 0%R)). rewrite (column (numstyle k) (put_data (nth i T 0%R) Ttype) (nth i m []) j " ").
      * split; [apply alone|]. apply Pk, number_rounded.
      * rewrite put_data_length by now apply FT. reflexivity.
      * exact Fr.
      * exact Wk.
      * rewrite Lr. exact Hj.
Qed.

(** ** What cannot be exported *)
(** A one-dimensional dataset with at least one temperature and one column: the
    table stops after the first temperature, in a file already begun. *)
Theorem C63_vector_fails types adim t T xname xunit y yname yunit v zname zunit kz kx ky :
  types zname = Some kz -> types xname = Some kx -> types yname = Some ky -> y <> [] ->
  let w := write types adim (t :: T) xname xunit y yname yunit (Vec v) zname zunit in
  snd w = Raised "IndexError" /\ exists before, fst w = before +++ put_data t (numstyle kx).
Proof.
  intros Z X Y N. cbv zeta. unfold write. destruct (calc_space (List.length y)) as [totw dataw]. rewrite Z, X, Y.
  destruct y as [|y0 y]; [contradiction|]. cbn [List.length rows seq cells entry].
  assert (E : (match nth_error v 0 with Some _ => inr "IndexError" | None => inr "IndexError" end : R + string) = inr "IndexError") by now destruct (nth_error v 0).
  rewrite E. unfold put. cbn [fst snd]. split; [reflexivity|]. rewrite append_nil. rewrite <- !append_assoc. eexists. reflexivity.
Qed.
(** Fewer rows than temperatures: IndexError after the rows there are. *)
Lemma rows_short x xst zst ny m0 m i k : ny <> 0 -> skipn i m0 = m -> i <= List.length m0 -> List.length m < List.length x -> Forall (fun r => List.length r = ny) m ->
  snd (rows x xst zst ny (Mat m0) i k) = Raised "IndexError".
Proof.
  intros N. revert m i. induction x as [|t x IH]; intros m i E I L F; [simpl in L; lia|]. cbn [rows]. unfold put at 1. cbn [snd].
  destruct m as [|r m].
  - destruct ny as [|ny]; [contradiction|]. cbn [seq cells entry].
    assert (X : nth_error m0 i = None). { apply nth_error_None. pose proof (skipn_length i m0) as S. rewrite E in S. simpl in S. lia. }
    now rewrite X.
  - inversion F as [|? ? Fr Fm]; subst.
    assert (X : nth_error m0 i = Some r).
    { rewrite <- (firstn_skipn i m0) at 1. rewrite nth_error_app2; rewrite firstn_length_le by assumption; [|lia]. rewrite Nat.sub_diag, E. reflexivity. }
    assert (Y : skipn (S i) m0 = m). { clear -E. revert i E. induction m0 as [|a m0 IH]; intros [|i] E; cbn in E |- *; try discriminate; [congruence|now apply IH]. }
    rewrite (cells_row m0 zst i 0 (List.length r) r) by (assumption || reflexivity). unfold put. cbn [snd].
    apply (IH m (S i) Y); [|simpl in L; lia|exact Fm].
    pose proof (skipn_length i m0) as S. rewrite E in S. simpl in S. lia.
Qed.
Theorem C63_short_fails types adim x xname xunit y yname yunit m zname zunit kz kx ky :
  types zname = Some kz -> types xname = Some kx -> types yname = Some ky -> y <> [] ->
  List.length m < List.length x -> Forall (fun r => List.length r = List.length y) m ->
  snd (write types adim x xname xunit y yname yunit (Mat m) zname zunit) = Raised "IndexError".
Proof.
  intros Z X Y N L F. unfold write. destruct (calc_space (List.length y)) as [totw dataw]. rewrite Z, X, Y.
  destruct y as [|y0 y]; [contradiction|]. unfold put. cbn [snd].
  apply rows_short with (m := m); [discriminate|reflexivity|lia|exact L|exact F].
Qed.

(** * From the calculation to the table *)
(** An exporter which has just loaded a file exports that file's data, whatever
    was loaded before. *)
Lemma set_all_find l l0 (k : string) (d : dataset) : NoDup (map fst l) -> In (k, d) l ->
  find k (fold_left (fun l kd => set_key (fst kd) (snd kd) l) l l0) = Some d.
Proof.
  revert l0. induction l as [|(k', d') l IH]; intros l0 N H; [destruct H|]. inversion N as [|? ? N1 N2]; subst. cbn [fold_left fst snd].
  destruct H as [[= -> ->]|H]; [|now apply IH].
  assert (Keep : forall l0, ~ In k (map fst l) -> find k (fold_left (fun l kd => set_key (fst kd) (snd kd) l) l l0) = find k l0).
  { clear. induction l as [|(a, b) l IH]; intros l0 H; [reflexivity|]. cbn [fold_left fst snd map In] in *. rewrite IH by tauto. cbn [find set_key].
    destruct (String.eqb_spec k a) as [->|]; [tauto|reflexivity]. }
  rewrite Keep by exact N1. cbn [find set_key]. now rewrite String.eqb_refl.
Qed.
Theorem C63_last_loaded types adim yname f s i t p k d :
  info f = Some i -> NoDup (map fst (datasets f)) ->
  find "T" (datasets f) = Some t -> find yname (datasets f) = Some p ->
  In (k, d) (datasets f) -> k <> "T" -> k <> yname ->
  In k (keys (snd (load yname f s))) /\ error (snd (load yname f s)) = None /\
  export types adim yname (fst (load yname f s)) k =
    write types adim (axis (values t)) "T" (unit_of t) (axis (values p)) yname (unit_of p) (values d) k (unit_of d).
Proof.
  intros I N Ft Fp H K1 K2. unfold load. rewrite I, Ft, Fp. cbn [fst snd keys error].
  assert (O : In (k, d) (filter (fun kd => negb (String.eqb (fst kd) "T" || String.eqb (fst kd) yname)) (datasets f))).
  { apply filter_In. split; [exact H|]. cbn [fst]. apply String.eqb_neq in K1, K2. now rewrite K1, K2. }
  split; [|split; [reflexivity|]].
  - apply in_map_iff. now exists (k, d).
  - unfold export. cbn [sx sy sdata]. rewrite (set_all_find _ (sdata s) k d); [reflexivity| |exact O].
    clear -N. induction (datasets f) as [|a l IH]; [constructor|]. cbn [map filter] in *. inversion N as [|? ? N1 N2]; subst.
    destruct (negb _); [|now apply IH]. cbn [map]. constructor; [|now apply IH].
    intros X. apply N1. apply in_map_iff in X as (b & E & B). apply filter_In in B as (B & _). apply in_map_iff. now exists b.
Qed.
(** The unit each property is stored with. *)
Definition stored_units (s : settings) : list (string * string) :=
  [("Uzp", eunit s); ("Uth", eunit s); ("Utot", eunit s); ("S", "m" +++ eunit s); ("Fvib", eunit s); ("F", eunit s); ("Cv", "m" +++ eunit s);
   ("VT", vunit s); ("Cp", eunit s); ("Cp-Cv", eunit s); ("KT", punit s); ("KS", punit s); ("Kp", ""); ("H", eunit s); ("G", eunit s);
   ("alphaV", "K^-1"); ("gruneisen", "")].
(** The results under the names they are exported with. *)
Definition computed (r : results) : list (string * mat) :=
  [("Uzp", Uzp r); ("Uth", Uth r); ("Utot", Utot r); ("S", Ent r); ("Fvib", Fvib r); ("F", F r); ("Cv", Cv r); ("VT", VT r);
   ("Cp", Cp r); ("Cp-Cv", CpCv r); ("KT", KT r); ("KS", KS r); ("Kp", Kp r); ("H", H r); ("G", G r); ("alphaV", alphaV r);
   ("gruneisen", gruneisen r)].
Definition property (r : results) (name : string) : option mat := find name (computed r).
Lemma computed_stored r : computed r = qha_properties r. Proof. reflexivity. Qed.
Lemma array_rows n m f : array_of n m f = Mat (map (fun i => map (f i) (seq 0 m)) (seq 0 n)). Proof. reflexivity. Qed.
Definition table_rows (n m : nat) (f : nat -> nat -> R) : list (list R) := map (fun i => map (f i) (seq 0 m)) (seq 0 n).
Lemma table_rows_shape n m f : List.length (table_rows n m f) = n /\ Forall (fun r => List.length r = m) (table_rows n m f).
Proof.
  unfold table_rows. split; [now rewrite map_length, seq_length|]. apply Forall_forall. intros r H. apply in_map_iff in H as (i & <- & _). now rewrite map_length, seq_length.
Qed.
(** All properties of a QHA calculation saved to a file can be exported from it;
    the tables show them to the digits printed. *)
Theorem C63_qha_export s T P r name f u shared0 :
  property r name = Some f -> find name (stored_units s) = Some u -> P <> [] -> Forall no_newline [eunit s; vunit s; tunit s; punit s] ->
  let l := load "P" (qha_file s T P r) shared0 in
  let w := export qha_types true "P" (fst l) name in
  In name (keys (snd l)) /\ error (snd l) = None /\ snd w = Done /\
  is_table (fst w) true T ("T (" +++ tunit s +++ ")") P ("P (" +++ punit s +++ ")") (table_rows (List.length T) (List.length P) f) name u.
Proof.
  intros E EU NP U. cbv zeta.
  assert (UN : forall w, In w [eunit s; vunit s; tunit s; punit s] -> no_newline w) by now apply Forall_forall.
  assert (I : In (name, f) (qha_properties r)).
  { unfold property in E. rewrite computed_stored in E. induction (qha_properties r) as [|(k, g) l IH]; [discriminate|]. cbn [find] in E. destruct (String.eqb_spec name k) as [->|]; [injection E as ->; now left|right; now apply IH]. }
  assert (HN : In name qha_names) by (apply (in_map fst) in I; exact I).
  assert (Uq : u = qha_unit s name).
  { clear -HN EU. repeat (destruct HN as [<-|HN]; [vm_compute in EU; injection EU as <-; reflexivity|]). destruct HN. }
  subst u. clear EU.
  assert (K : name <> "T" /\ name <> "P").
  { split; intros ->; vm_compute in HN; repeat (destruct HN as [HN|HN]; [discriminate HN|]); exact HN. }
  destruct (C63_last_loaded qha_types true "P" (qha_file s T P r) shared0 info_text {| values := Vec T; unit_of := tunit s |} {| values := Vec P; unit_of := punit s |}
    name {| values := array_of (List.length T) (List.length P) f; unit_of := qha_unit s name |}) as (A & B & C); try reflexivity; try apply K.
  - assert (Q : map fst (datasets (qha_file s T P r)) = "T" :: "P" :: qha_names) by reflexivity. rewrite Q.
    assert (D : nodup string_dec ("T" :: "P" :: qha_names) = "T" :: "P" :: qha_names) by (vm_compute; reflexivity). rewrite <- D. apply NoDup_nodup.
  - cbn [qha_file datasets]. right. right. apply in_map_iff. now exists (name, f).
  - split; [exact A|]. split; [exact B|]. rewrite C. cbn [values unit_of axis]. rewrite array_rows.
    destruct (table_rows_shape (List.length T) (List.length P) f) as (L & F). apply C63_qha_table; try assumption; try (apply UN; simpl; tauto).
    unfold qha_unit. repeat match goal with |- context [if ?b then _ else _] => destruct b end; try reflexivity; try (apply UN; simpl; tauto).
    apply no_newline_app; [reflexivity|apply UN; simpl; tauto].
Qed.
(** The unit of the isobaric heat capacity: the numbers are those of the
    isochoric one plus the correction, but the file calls the former 'm' +
    energy unit and the latter two energy unit. *)
Theorem C63_cp_unit_refuted K h kb pf ro ef kc ks s x T P r :
  run K h kb pf ro ef kc ks s x T P = QhaRunModel.Ok r -> 50 <= List.length T ->
  (forall i j, Cp r i j = (Cv r i j + CpCv r i j)%R) /\
  qha_unit s "Cv" = "m" +++ eunit s /\ qha_unit s "Cp" = eunit s /\ qha_unit s "Cp-Cv" = eunit s /\ qha_unit s "Cv" <> qha_unit s "Cp".
Proof.
  intros E L. destruct (long_inv _ _ _ _ _ _ _ _ _ _ _ _ _ E L) as (? & ? & ? & ? & ? & ? & _ & _ & _ & _ & _ & _ & _ & _ & Q & _).
  split; [exact Q|]. repeat (split; [reflexivity|]). change (qha_unit s "Cv") with ("m" +++ eunit s). change (qha_unit s "Cp") with (eunit s).
  intros X. apply (f_equal String.length) in X. rewrite append_length in X. cbn [String.length] in X. lia.
Qed.

Definition ha_property (r : ha_results) (name : string) : option (nat -> nat -> R) :=
  find name [("Uth", ha_Uth r); ("Utot", ha_Utot r); ("S", ha_S r); ("Fvib", ha_Fvib r); ("F", ha_F r); ("Cv", ha_Cv r)].
Lemma ha_nodup s x T r : NoDup (map fst (datasets (ha_file s x T r))).
Proof.
  assert (D : nodup string_dec ("V" :: "T" :: "U0" :: "Uzp" :: ha_names) = "V" :: "T" :: "U0" :: "Uzp" :: ha_names) by (vm_compute; reflexivity).
  change (map fst (datasets (ha_file s x T r))) with ("V" :: "T" :: "U0" :: "Uzp" :: ha_names). rewrite <- D. apply NoDup_nodup.
Qed.
Definition ha_volumes (x : input) : list R := map (volume x) (seq 0 (nvol x)).
Theorem C63_ha_export s x T r name f shared0 :
  ha_property r name = Some f -> 1 <= nvol x -> Forall no_newline [eunit s; vunit s; tunit s] ->
  let l := load "V" (ha_file s x T r) shared0 in
  let w := export ha_types false "V" (fst l) name in
  In name (keys (snd l)) /\ error (snd l) = None /\ snd w = Done /\
  is_table (fst w) false T ("T (" +++ tunit s +++ ")") (ha_volumes x) ("V (" +++ vunit s +++ "^3)") (table_rows (List.length T) (nvol x) f) name
    (if mem name ["S"; "Cv"] then "m" +++ eunit s else eunit s).
Proof.
  intros E NV U. cbv zeta.
  assert (UN : forall w, In w [eunit s; vunit s; tunit s] -> no_newline w) by now apply Forall_forall.
  set (d := {| values := array_of (List.length T) (nvol x) f; unit_of := ha_unit s name |}).
  assert (Uh : In name ha_names -> (if mem name ["S"; "Cv"] then "m" +++ eunit s else eunit s) = ha_unit s name).
  { intros HN. repeat (destruct HN as [<-|HN]; [reflexivity|]). destruct HN. }
  assert (I : In (name, d) (datasets (ha_file s x T r)) /\ In name ha_names).
  { unfold ha_property in E. cbn [find] in E. subst d. cbn [ha_file datasets].
    repeat match type of E with context [String.eqb name ?k] => destruct (String.eqb_spec name k) as [->|]; [injection E as <-; split; [simpl; tauto|simpl; tauto]|] end. discriminate E. }
  destruct I as (I & HN). rewrite (Uh HN).
  assert (K : name <> "T" /\ name <> "V").
  { split; intros ->; vm_compute in HN; repeat (destruct HN as [HN|HN]; [discriminate HN|]); exact HN. }
  destruct (C63_last_loaded ha_types false "V" (ha_file s x T r) shared0 info_text {| values := Vec T; unit_of := tunit s |} {| values := Vec (ha_volumes x); unit_of := vunit s |}
    name d) as (A & B & C); try reflexivity; try apply K.
  - apply ha_nodup.
  - exact I.
  - split; [exact A|]. split; [exact B|]. rewrite C. subst d. cbn [values unit_of axis]. rewrite array_rows.
    assert (LV : List.length (ha_volumes x) = nvol x) by (unfold ha_volumes; now rewrite map_length, seq_length).
    destruct (table_rows_shape (List.length T) (nvol x) f) as (L & F). apply C63_ha_table; try (rewrite ?LV; assumption); try (apply UN; simpl; tauto).
    + right. exact HN.
    + intros X. rewrite X in LV. simpl in LV. lia.
    + unfold ha_unit. repeat match goal with |- context [if ?b then _ else _] => destruct b end; try (apply UN; simpl; tauto).
      apply no_newline_app; [reflexivity|apply UN; simpl; tauto].
Qed.
(** The static energies, offered by the exporter, can never be exported. *)
Theorem C63_ha_static_refuted s x T r shared0 :
  1 <= nvol x -> T <> [] ->
  let l := load "V" (ha_file s x T r) shared0 in
  In "U0" (keys (snd l)) /\ snd (export ha_types false "V" (fst l) "U0") = Raised "IndexError".
Proof.
  intros NV NT. cbv zeta.
  destruct (C63_last_loaded ha_types false "V" (ha_file s x T r) shared0 info_text {| values := Vec T; unit_of := tunit s |} {| values := Vec (ha_volumes x); unit_of := vunit s |}
    "U0" {| values := Vec (map (static_energy x) (seq 0 (nvol x))); unit_of := eunit s |}) as (A & _ & C); try reflexivity; try discriminate.
  - apply ha_nodup.
  - cbn [ha_file datasets]. simpl. tauto.
  - split; [exact A|]. rewrite C. cbn [values unit_of axis]. destruct T as [|t T]; [contradiction|].
    eapply (C63_vector_fails ha_types false t T "T" _ _ "V"); try reflexivity.
    unfold ha_volumes. destruct (nvol x); [lia|discriminate].
Qed.
(** The zero-point energies only when there is one temperature. *)
Theorem C63_ha_zero_point_refuted s x T r shared0 :
  1 <= nvol x -> 2 <= List.length T ->
  let l := load "V" (ha_file s x T r) shared0 in
  In "Uzp" (keys (snd l)) /\ snd (export ha_types false "V" (fst l) "Uzp") = Raised "IndexError".
Proof.
  intros NV NT. cbv zeta.
  destruct (C63_last_loaded ha_types false "V" (ha_file s x T r) shared0 info_text {| values := Vec T; unit_of := tunit s |} {| values := Vec (ha_volumes x); unit_of := vunit s |}
    "Uzp" {| values := array_of 1 (nvol x) (fun _ => ha_Uzp r); unit_of := ha_unit s "Uzp" |}) as (A & _ & C); try reflexivity; try discriminate.
  - apply ha_nodup.
  - cbn [ha_file datasets]. simpl. tauto.
  - split; [exact A|]. rewrite C. cbn [values unit_of axis].
    assert (LV : List.length (ha_volumes x) = nvol x) by (unfold ha_volumes; now rewrite map_length, seq_length).
    eapply (C63_short_fails ha_types false T "T" _ _ "V"); try reflexivity.
    + intros X. rewrite X in LV. simpl in LV. lia.
    + cbn [List.length seq map]. lia.
    + rewrite LV. constructor; [now rewrite map_length, seq_length|constructor].
Qed.
(** Two exporters in one process share their data: after the second has loaded
    its file the first exports the second's. *)
Theorem C63_exporters_mixed_refuted types adim yname f1 f2 s i2 t2 p2 k d1 d2 :
  In (k, d1) (datasets f1) ->
  info f2 = Some i2 -> NoDup (map fst (datasets f2)) -> find "T" (datasets f2) = Some t2 -> find yname (datasets f2) = Some p2 ->
  In (k, d2) (datasets f2) -> k <> "T" -> k <> yname ->
  let s1 := fst (load yname f1 s) in
  let s2 := fst (load yname f2 s1) in
  export types adim yname s2 k = write types adim (axis (values t2)) "T" (unit_of t2) (axis (values p2)) yname (unit_of p2) (values d2) k (unit_of d2).
Proof. intros _ I N Ft Fp H K1 K2. cbv zeta. now apply (C63_last_loaded types adim yname f2 _ i2). Qed.

(** ** File names *)
Theorem C63_overwrite existing basename selection overwrite typed :
  let d := destination existing basename selection overwrite typed in
  existing d = true -> (d = basename +++ "_" +++ selection +++ ".dat" /\ overwrite = true) \/ (d = typed /\ overwrite = false).
Proof.
  cbv zeta. unfold destination. fold (default_name basename selection). destruct (existing (default_name basename selection)) eqn:E.
  - destruct overwrite; auto.
  - intros X. rewrite E in X. discriminate.
Qed.
(** The name entered instead is not checked. *)
Theorem C63_typed_overwritten_refuted : exists existing basename selection typed,
  let d := destination existing basename selection false typed in existing d = true /\ d = "precious.txt".
Proof. exists (fun _ => true), "run", "KT", "precious.txt". split; reflexivity. Qed.
Lemma append_inj_l a b c : a +++ b = a +++ c -> b = c. Proof. induction a as [|x a IH]; [exact (fun H => H)|]. cbn. intros [= H]. now apply IH. Qed.
Lemma append_inj_len a b c d : String.length a = String.length c -> a +++ b = c +++ d -> a = c /\ b = d.
Proof.
  revert c. induction a as [|x a IH]; intros [|y c] L E; try discriminate L; [now split|]. cbn in L, E. injection L as L. injection E as -> E.
  destruct (IH c L E) as (-> & ->). now split.
Qed.
Theorem C63_distinct_files basename a b : a <> b -> default_name basename a <> default_name basename b.
Proof.
  intros D E. apply D. unfold default_name in E. apply append_inj_l in E. cbn in E. injection E as E.
  assert (L : String.length a = String.length b) by (apply (f_equal String.length) in E; rewrite !append_length in E; lia).
  now apply append_inj_len in E as (-> & _).
Qed.

(** * Cases *)
Example C63_table_case : let w := write qha_types true [0; 300]%R "T" "K" [0; 5; 10]%R "P" "GPa" (Mat [[1; 2; 3]; [4; -5; 6]]%R) "KT" "GPa" in
  snd w = Done /\ is_table (fst w) true [0; 300]%R "T (K)" [0; 5; 10]%R "P (GPa)" [[1; 2; 3]; [4; -5; 6]]%R "KT" "GPa" /\
  String.length (nth 9 (lines (fst w)) "") = 75 /\
  (exists v, numbers (String.substring 32 21 (nth 10 (lines (fst w)) "")) = Some [v] /\ rounded 8 (-5) v).
Proof.
  cbv zeta. assert (F : Forall (fun r : list R => List.length r = 3) [[1; 2; 3]; [4; -5; 6]]%R) by (repeat constructor).
  pose proof (C63_qha_table [0; 300]%R [0; 5; 10]%R [[1; 2; 3]; [4; -5; 6]]%R "KT" "K" "GPa" "GPa" ltac:(simpl; tauto) ltac:(discriminate) eq_refl F eq_refl eq_refl eq_refl) as (A & B).
  split; [exact A|]. split; [exact B|].
  assert (ST : Forall small_T [0; 300]%R) by (repeat constructor; unfold small_T; lra).
  assert (SP : Forall small_fixed [0; 5; 10]%R) by (repeat constructor; unfold small_fixed; lra).
  assert (SM : Forall (Forall (small "KT")) [[1; 2; 3]; [4; -5; 6]]%R) by (repeat constructor; unfold small, small_fixed; cbn [mem]; simpl; lra).
  pose proof (C63_qha_aligned [0; 300]%R [0; 5; 10]%R [[1; 2; 3]; [4; -5; 6]]%R "KT" "K" "GPa" "GPa" ltac:(simpl; tauto) ltac:(discriminate) eq_refl F eq_refl eq_refl eq_refl
    ST SP SM ltac:(cbn [String.length]; lia) ltac:(cbn [String.length]; lia)) as (W & C).
  split.
  - rewrite W; [reflexivity|]. rewrite (lines_written qha_types true _ "T" "K" _ "P" "GPa" _ "KT" "GPa" _ _ _ eq_refl eq_refl eq_refl); try assumption; try reflexivity; [cbn; lia|discriminate].
  - destruct (C 1 ltac:(cbn [List.length]; lia)) as (_ & R). exact (R 1 ltac:(cbn [List.length]; lia)).
Qed.
Definition a_results : results :=
  let c (z : R) : mat := fun i j => (z + INR i - INR j)%R in
  {| Uzp := c 1%R; Uth := c 2%R; Utot := c 3%R; Ent := c 4%R; F := c 5%R; Fvib := c 6%R; Cv := c 7%R; VT := c 8%R; KT := c 9%R; Kp := c 10%R;
     H := c 11%R; G := c 12%R; alphaV := c 13%R; CpCv := c 14%R; Cp := c 15%R; KS := c 16%R; gruneisen := c 17%R |}.
Definition a_settings : settings :=
  {| qha_scheme := "td"; minimization := "poly"; eos_function := "BM"; kieffer_on := false; edeg := 3; fdeg := 3;
     eunit := "Ha"; funit := "cm^-1"; vunit := "A"; tunit := "K"; punit := "GPa" |}.
Example C63_export_case : let l := load "P" (qha_file a_settings [100; 200]%R [0; 1]%R a_results) no_data in
  keys (snd l) = qha_names /\
  forall name, In name qha_names -> snd (export qha_types true "P" (fst l) name) = Done.
Proof.
  cbv zeta. split; [reflexivity|]. intros name H.
  assert (E : exists f u, property a_results name = Some f /\ find name (stored_units a_settings) = Some u) by (repeat (destruct H as [<-|H]; [eexists _, _; split; reflexivity|]); destruct H).
  destruct E as (f & u & E & EU). apply (C63_qha_export a_settings [100; 200]%R [0; 1]%R a_results name f u no_data E EU); [discriminate|repeat constructor].
Qed.
Definition a_input : input :=
  {| nvol := 2; volume := fun i => INR (100 + i); static_energy := fun i => (- INR i)%R;
     frequencies := {| StatMechModel.nb := 1; StatMechModel.nf := 1; StatMechModel.nv := 2; StatMechModel.freq := fun _ _ _ => 1%R |};
     weights := fun _ => 1%R; total_q_points := 1%R |}.
Definition a_ha : ha_results :=
  {| ha_Uzp := fun _ => 1%R; ha_Uth := fun _ _ => 1%R; ha_Utot := fun _ _ => 1%R; ha_S := fun _ _ => 1%R; ha_F := fun _ _ => 1%R; ha_Fvib := fun _ _ => 1%R; ha_Cv := fun _ _ => 1%R |}.
Example C63_ha_case : let l := load "V" (ha_file a_settings a_input [100; 200]%R a_ha) no_data in
  keys (snd l) = ["U0"; "Uzp"; "Uth"; "Utot"; "S"; "Fvib"; "F"; "Cv"] /\
  map (fun k => snd (export ha_types false "V" (fst l) k)) (keys (snd l)) = [Raised "IndexError"; Raised "IndexError"; Done; Done; Done; Done; Done; Done].
Proof.
  cbv zeta. assert (K : keys (snd (load "V" (ha_file a_settings a_input [100; 200]%R a_ha) no_data)) = ["U0"; "Uzp"; "Uth"; "Utot"; "S"; "Fvib"; "F"; "Cv"]) by reflexivity.
  split; [exact K|]. rewrite K. cbn [map].
  rewrite (proj2 (C63_ha_static_refuted a_settings a_input [100; 200]%R a_ha no_data ltac:(cbn [nvol a_input]; lia) ltac:(discriminate))).
  rewrite (proj2 (C63_ha_zero_point_refuted a_settings a_input [100; 200]%R a_ha no_data ltac:(cbn [nvol a_input]; lia) ltac:(cbn [List.length]; lia))).
  assert (X : forall name f, ha_property a_ha name = Some f -> snd (export ha_types false "V" (fst (load "V" (ha_file a_settings a_input [100; 200]%R a_ha) no_data)) name) = Done).
  { intros name f E. apply (C63_ha_export a_settings a_input [100; 200]%R a_ha name f no_data E); [cbn [nvol a_input]; lia|repeat constructor]. }
  rewrite (X "Uth" _ eq_refl), (X "Utot" _ eq_refl), (X "S" _ eq_refl), (X "Fvib" _ eq_refl), (X "F" _ eq_refl), (X "Cv" _ eq_refl). reflexivity.
Qed.
(** One temperature: the zero-point energy gives a table. *)
Example C63_ha_one : snd (write ha_types false [100]%R "T" "K" [10; 11]%R "V" "A" (Mat [[1; 2]]%R) "Uzp" "Ha") = Done.
Proof. apply (C63_ha_table [100]%R [10; 11]%R [[1; 2]]%R "Uzp" "K" "A" "Ha"); try reflexivity; [simpl; tauto|discriminate|repeat constructor]. Qed.
(** Mixed exporters: the first has loaded temperatures 100 and 200; its table is
    the second's. *)
Example C63_mixed_case :
  let s1 := fst (load "V" (ha_file a_settings a_input [100; 200]%R a_ha) no_data) in
  let s2 := fst (load "V" (ha_file a_settings a_input [300]%R a_ha) s1) in
  is_table (fst (export ha_types false "V" s2 "Cv")) false [300]%R "T (K)" [100; 101]%R "V (A^3)" [[1; 1]]%R "Cv" "mHa".
Proof.
  cbv zeta.
  destruct (C63_ha_export a_settings a_input [300]%R a_ha "Cv" (fun _ _ => 1%R) (fst (load "V" (ha_file a_settings a_input [100; 200]%R a_ha) no_data)) eq_refl
    ltac:(cbn [nvol a_input]; lia) ltac:(repeat constructor)) as (_ & _ & _ & X).
  replace [100; 101]%R with (ha_volumes a_input); [exact X|]. unfold ha_volumes. cbn [a_input nvol seq map volume Nat.add]. rewrite !INR_IZR_INZ. reflexivity.
Qed.
Example C63_names_case : destination (fun f => String.eqb f "run_KT.dat") "run" "KT" true "x" = "run_KT.dat" /\
  destination (fun _ => false) "run" "Cp-Cv" false "x" = "run_Cp-Cv.dat" /\ default_name "run" "KT" <> default_name "run" "KS".
Proof. split; [reflexivity|]. split; [reflexivity|]. apply C63_distinct_files. discriminate. Qed.

Print Assumptions C63_qha_table.
Print Assumptions C63_ha_table.
Print Assumptions C63_titles.
Print Assumptions C63_qha_aligned.
Print Assumptions C63_vector_fails.
Print Assumptions C63_short_fails.
Print Assumptions C63_last_loaded.
Print Assumptions C63_qha_export.
Print Assumptions C63_cp_unit_refuted.
Print Assumptions C63_ha_export.
Print Assumptions C63_ha_static_refuted.
Print Assumptions C63_ha_zero_point_refuted.
Print Assumptions C63_exporters_mixed_refuted.
Print Assumptions C63_overwrite.
Print Assumptions C63_typed_overwritten_refuted.
Print Assumptions C63_distinct_files.
