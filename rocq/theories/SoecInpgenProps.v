(** C82: from the output of an ab initio code to an elastic constants input
    file and back. *)
From Coq Require Import Reals String Ascii List Bool Arith ZArith NArith Lia Lra.
From Verif Require Import Py DecimalModel DecimalProofs SoecIOModel SoecIOProps SoecInterfaceModel SoecInterfaceProps CliModel SoecInpgenModel.
Import ListNotations.
Open Scope string_scope.
Open Scope list_scope.
Open Scope nat_scope.

Section C82.
Variable t : texts.
Variable round_abs : nat -> R -> N.
Hypothesis round_near : forall k x, (Rabs (IZR (Z.of_N (round_abs k x)) - Rabs x * 10 ^ k) <= 1 / 2)%R.
Variable is_text : string -> bool.
Notation command := (soec_inpgen t round_abs is_text).
Notation collect := (collect is_text).
Notation rounded := (rounded round_abs).

Lemma text_of_numbers title m rho x y : (forall i j, i < 6 -> j < 6 -> m i j = Num (x i j)) -> rho = Num y ->
  soec_text round_abs title m rho = SoecIOModel.write round_abs title x y.
Proof.
  intros H ->. unfold soec_text, SoecIOModel.write. f_equal. f_equal. f_equal.
  apply map_ext_in. intros i I. apply in_seq in I. f_equal. apply map_ext_in. intros j J. apply in_seq in J.
  rewrite H by lia. reflexivity.
Qed.

(** What a command leaves when the numbers were collected. *)
Definition job_of (a : string) : string := if String.eqb a "" then "Unknown" else a.
Lemma generated k f o a w content m rho : fs w f = File content -> collect k f content = Got m rho -> fs w (input_path f o) <> Dir ->
  exists v, command k f o (Ok a) w = (Ok tt, v) /\
    fs v = update (fs w) (input_path f o) (File (soec_text round_abs (job_of a) m rho)) /\
    screen v = screen w ++ [(Highlight, title t); (Plain, "Preparing the input file for Quantas: '" +++ input_path f o +++ "'");
      (Question, description); (Highlight, bib_header t); (Highlight, own_citation t); (Highlight, bib_footer t); (Highlight, finish t)].
Proof.
  intros F C D. unfold soec_inpgen, look, bind at 1. rewrite F, C.
  unfold echo_highlight, echo, prompt, log, bind, show, ret, write. cbn [negb fs screen].
  fold (job_of a). destruct (fs w (input_path f o)) eqn:E; [| |contradiction]; eexists; (split; [reflexivity|]); cbn [fs screen]; rewrite <- !app_assoc; split; reflexivity.
Qed.
Lemma update_same p n g : update g p n p = n.
Proof. unfold update. now rewrite String.eqb_refl. Qed.
Lemma update_other p q n g : q <> p -> update g p n q = g q.
Proof. intros H. unfold update. destruct (String.eqb_spec q p); [contradiction|reflexivity]. Qed.

(** Descriptions which give a readable file: one line, not blank, not starting
    with a digit. The default is one. *)
Definition proper_title (a : string) : Prop := no_newline (job_of a) /\ titled (job_of a).
Lemma default_title : proper_title "".
Proof. split; [reflexivity|]. exists "U"%char. split; reflexivity. Qed.

(** From a CRYSTAL output: the generated file is read back, whatever was read
    before, as the symmetric matrix whose upper triangle is printed in the
    output, every component within 5e-5 GPa, and the density within 0.05. *)
Theorem C82_crystal f o a w content c rho :
  fs w f = File content -> is_text content = true -> fs w (input_path f o) <> Dir ->
  crystal_load (readlines content) crystal_new = (c, SoecInterfaceModel.Completed) ->
  (forall i j, i <= j < 6 -> exists x, upper_printed (readlines content) i j (Num x)) -> crystal_density (readlines content) = inl (Num rho) ->
  proper_title a ->
  exists v text, command Crystal f o (Ok a) w = (Ok tt, v) /\ fs v (input_path f o) = File text /\
    (forall p, p <> input_path f o -> fs v p = fs w p) /\
    forall d, exists s, SoecIOModel.load (readlines text) d =
      ({| SoecIOModel.job := rstrip (job_of a); stiffness := Some s; density := Num (rounded 1 rho) |}, SoecIOModel.Completed) /\
      (Rabs (rounded 1 rho - rho) <= 5e-2)%R /\
      forall i j, i < 6 -> j < 6 -> exists x y, upper_printed (readlines content) (Nat.min i j) (Nat.max i j) (Num x) /\ s i j = Num y /\ (Rabs (y - x) <= 5e-5)%R.
Proof.
  intros F T D E N R0 (T1 & T2).
  assert (DEN : c_density c = Num rho).
  { revert E. unfold crystal_load. destruct (existsb (contains soec_option) _); [|discriminate]. destruct (existsb (contains soec_completed) _); [|discriminate].
    cbn [negb]. rewrite R0. destruct (fill upper _ _) as [m [st|]]; intros Q; assert (X := f_equal fst Q); cbn [fst] in X; rewrite <- X; reflexivity. }
  assert (V : forall file i j v w, upper_printed file i j v -> upper_printed file i j w -> v = w).
  { intros g i j v w' (l & u & A & B & C0) (l' & u' & A' & B' & C'). congruence. }
  pose proof (C58_first _ _ E) as P.
  assert (X : exists x : nat -> nat -> R, forall i j, i < 6 -> j < 6 -> c_stiffness c i j = Num (x i j)).
  { exists (fun i j => match c_stiffness c i j with Num x => x | NaN => 0%R end). intros i j Hi Hj.
    destruct (P i j Hi Hj) as [_ U]. destruct (N (Nat.min i j) (Nat.max i j)) as [x X]; [lia|].
    rewrite (V _ _ _ _ _ U X). reflexivity. }
  destruct X as [x X].
  assert (C : collect Crystal f content = Got (c_stiffness c) (c_density c)).
  { unfold SoecInpgenModel.collect. rewrite T. cbn [negb]. rewrite E. reflexivity. }
  destruct (generated Crystal f o a w content _ _ F C D) as (v & RUN & FS & _).
  exists v, (SoecIOModel.write round_abs (job_of a) x rho). split; [exact RUN|]. rewrite FS.
  split; [rewrite update_same; f_equal; now apply text_of_numbers|]. split; [intros p Hp; now apply update_other|]. intros d.
  destruct (C37_roundtrip round_abs round_near (job_of a) x rho d T1 T2) as (s & L & S1 & S2 & S3).
  { intros i j Hi Hj. destruct (P i j Hi Hj) as [S0 _]. rewrite !X in S0 by assumption. congruence. }
  exists s. split; [exact L|]. split; [exact S3|]. intros i j Hi Hj. exists (x i j), (rounded 4 (x i j)).
  split; [|split; [now apply S1|apply S2]]. destruct (P i j Hi Hj) as [_ U]. rewrite X in U by assumption. exact U.
Qed.

(** The same in a VASP run: the matrix read back is a tenth of the printed one,
    rows and columns placed as in C56_exchanged; the density is always 0. *)
Theorem C82_vasp f o a w content m :
  fs w f = File content -> is_text content = true -> fs w (input_path f o) <> Dir ->
  vasp_load (readlines content) (fun _ _ => Num 0) = (m, SoecInterfaceModel.Completed) ->
  (exists s, vasp_start_line (readlines content) = Some s /\ (forall i j, i < 6 -> j < 6 -> exists x, printed (readlines content) s i j (Num x)) /\
     forall i j x y, i < 6 -> j < 6 -> printed (readlines content) s i j x -> printed (readlines content) s j i y -> x = y) ->
  proper_title a ->
  exists v text, command Vasp f o (Ok a) w = (Ok tt, v) /\ fs v (input_path f o) = File text /\
    (forall p, p <> input_path f o -> fs v p = fs w p) /\
    forall d, exists s, SoecIOModel.load (readlines text) d =
      ({| SoecIOModel.job := rstrip (job_of a); stiffness := Some s; density := Num 0 |}, SoecIOModel.Completed) /\
      forall p q, p < 6 -> q < 6 -> exists l i j x y, vasp_start_line (readlines content) = Some l /\ i < 6 /\ j < 6 /\
        vasp_axes i = voigt_axes (yz_zx p) /\ vasp_axes j = voigt_axes (yz_zx q) /\
        printed (readlines content) l i j (Num x) /\ s p q = Num y /\ (Rabs (y - x / 10) <= 5e-5)%R.
Proof.
  intros F T D E (l & L0 & N & SY) (T1 & T2).
  destruct (C56_exchanged _ _ _ E) as (l' & L1 & P). assert (l' = l) by congruence. subst l'.
  assert (POS : forall p, p < 6 -> exists i, i < 6 /\ vasp_axes i = voigt_axes (yz_zx p)) by (intros p Hp; apply has_axes, yz_zx_range, Hp).
  assert (Z : forall p q, p < 6 -> q < 6 -> exists i j x, i < 6 /\ j < 6 /\ vasp_axes i = voigt_axes (yz_zx p) /\ vasp_axes j = voigt_axes (yz_zx q) /\
      printed (readlines content) l i j (Num x) /\ m p q = Num (x / 10)).
  { intros p q Hp Hq. destruct (POS p Hp) as (i & Hi & AI). destruct (POS q Hq) as (j & Hj & AJ).
    destruct (P p q i j Hp Hq Hi Hj AI AJ) as (v & PV & MV). destruct (N i j Hi Hj) as [x X].
    rewrite (printed_unique _ _ _ _ _ _ PV X) in MV. exists i, j, x. repeat (split; [assumption|]). rewrite <- tenth_in_GPa in MV. exact MV. }
  set (xm := fun i j => match m i j with Num x => x | NaN => 0%R end).
  assert (X : forall i j, i < 6 -> j < 6 -> m i j = Num (xm i j)).
  { intros i j Hi Hj. destruct (Z i j Hi Hj) as (i' & j' & x & _ & _ & _ & _ & _ & Q). unfold xm. now rewrite Q. }
  assert (SX : forall i j, i < 6 -> j < 6 -> xm i j = xm j i).
  { intros p q Hp Hq. destruct (POS p Hp) as (i & Hi & AI). destruct (POS q Hq) as (j & Hj & AJ).
    destruct (P p q i j Hp Hq Hi Hj AI AJ) as (v & PV & MV). destruct (P q p j i Hq Hp Hj Hi AJ AI) as (u & PU & MU).
    unfold xm. rewrite MV, MU. now rewrite (SY i j v u Hi Hj PV PU). }
  assert (C : collect Vasp f content = Got m (Num 0)).
  { unfold SoecInpgenModel.collect. rewrite T. cbn [negb]. rewrite E. reflexivity. }
  destruct (generated Vasp f o a w content _ _ F C D) as (v & RUN & FS & _).
  exists v, (SoecIOModel.write round_abs (job_of a) xm 0). split; [exact RUN|]. rewrite FS.
  split; [rewrite update_same; f_equal; now apply text_of_numbers|]. split; [intros p Hp; now apply update_other|]. intros d.
  destruct (C37_roundtrip round_abs round_near (job_of a) xm 0%R d T1 T2 SX) as (s & L & S1 & S2 & _).
  assert (Z0 : rounded 1 0 = 0%R).
  { unfold SoecIOProps.rounded. pose proof (round_near 1 0) as Q. rewrite Rabs_R0, Rmult_0_l, Rminus_0_r in Q.
    assert (round_abs 1 0%R = 0%N) as ->.
    { destruct (round_abs 1 0%R) as [|p]; [reflexivity|]. exfalso. rewrite Rabs_right in Q by (apply Rle_ge, IZR_le; lia).
      assert (1 <= IZR (Z.of_N (N.pos p)))%R by (apply IZR_le; lia). lra. }
    cbn [Z.of_N]. ring. }
  rewrite Z0 in L. exists s. split; [exact L|]. intros p q Hp Hq.
  destruct (Z p q Hp Hq) as (i & j & x & Hi & Hj & AI & AJ & PX & MX). exists l, i, j, x, (rounded 4 (xm p q)).
  repeat (split; [assumption|]). split; [now apply S1|].
  assert (xm p q = (x / 10)%R) as <- by (unfold xm; now rewrite MX). apply S2.
Qed.

(** Unless numbers were collected and a description given, no file changes. *)
Theorem C82_nothing_written k f o ans w :
  (forall m rho content, fs w f = File content -> collect k f content = Got m rho -> exists e, ans = Raises e) ->
  fs (snd (command k f o ans w)) = fs w.
Proof.
  intros H. unfold soec_inpgen, look, bind at 1. destruct (fs w f) as [|content|] eqn:F; [reflexivity| |reflexivity].
  destruct (collect k f content) as [m rho|err|e] eqn:C.
  - destruct (H m rho content eq_refl C) as [e ->]. reflexivity.
  - reflexivity.
  - unfold bind at 1. cbn [echo_highlight negb log show bind ret fst snd fs screen].
    destruct (String.eqb e "KeyError"); [reflexivity|]. destruct (String.eqb e "UnicodeDecodeError"); reflexivity.
Qed.
(** Exceptions: only those of the reader other than the two caught, an
    interrupted prompt, or an output path which is a directory. *)
Theorem C82_exceptions k f o ans w e : fst (command k f o ans w) = Raises e -> fs w f <> Absent ->
  (exists content, fs w f = File content /\ collect k f content = Threw e /\ e <> "KeyError" /\ e <> "UnicodeDecodeError") \/
  (exists content m rho, fs w f = File content /\ collect k f content = Got m rho /\
     (ans = Raises e \/ ((exists a, ans = Ok a) /\ fs w (input_path f o) = Dir /\ e = "IsADirectoryError"))).
Proof.
  intros E A. unfold soec_inpgen, look, bind at 1 in E. destruct (fs w f) as [|content|] eqn:F; [contradiction| |discriminate E].
  destruct (collect k f content) as [m rho|err|e0] eqn:C; [right|discriminate E|left].
  - exists content, m, rho. split; [reflexivity|]. split; [exact C|]. destruct ans as [a|e1].
    + right. split; [eauto|]. unfold echo_highlight, echo, prompt, log, bind, show, ret, write in E. cbn [negb fs screen] in E.
      destruct (fs w (input_path f o)); cbn in E; [discriminate|discriminate|]. split; [reflexivity|congruence].
    + left. unfold echo_highlight, echo, prompt, log, bind, show, ret, raise in E. cbn in E. congruence.
  - exists content. split; [reflexivity|]. unfold echo_highlight, log, bind, show, ret in E. cbn [negb fs screen fst] in E.
    destruct (String.eqb_spec e0 "KeyError") as [->|N1]; [discriminate E|].
    destruct (String.eqb_spec e0 "UnicodeDecodeError") as [->|N2]; [discriminate E|].
    cbn in E. assert (e0 = e) by congruence. subst. repeat split; assumption.
Qed.
(** An error message, unlike an exception, ends the command normally. *)
Theorem C82_messages k f o ans w content msg : fs w f = File content ->
  (collect k f content = Refused msg \/
   (collect k f content = Threw "UnicodeDecodeError" /\ msg = "File '" +++ f +++ "' is in binary format")) ->
  exists v, command k f o ans w = (Ok tt, v) /\ fs v = fs w /\
    screen v = screen w ++ [(Highlight, title t); (CliModel.Error, error_banner t); (CliModel.Error, msg)].
Proof.
  intros F C. unfold soec_inpgen, look, bind at 1. rewrite F.
  destruct C as [C|[C ->]]; rewrite C; unfold fails, echo_highlight, echo_error, log, bind, show, ret; cbn [negb fs screen String.eqb Ascii.eqb Bool.eqb];
    eexists; (split; [reflexivity|]); cbn [fs screen]; rewrite <- !app_assoc; split; reflexivity.
Qed.
(** What the messages say: a directory is named, and an output of the wrong kind is
    told from one of an unfinished calculation. *)
Theorem C82_directory k f o ans w : fs w f = Dir ->
  exists v, command k f o ans w = (Ok tt, v) /\ fs v = fs w /\
    screen v = screen w ++ [(Highlight, title t); (CliModel.Error, error_banner t); (CliModel.Error, f +++ " is not a file")].
Proof.
  intros F. unfold soec_inpgen, look, bind at 1. rewrite F. unfold fails, echo_highlight, echo_error, log, bind, show, ret. cbn [negb fs screen].
  eexists. split; [reflexivity|]. cbn [fs screen]. rewrite <- !app_assoc. split; reflexivity.
Qed.
Theorem C82_reasons f content : is_text content = true ->
  let mentions w := exists l, In l (readlines content) /\ contains w l = true in
  (~ mentions "ELASTCON OPTION" ->
    collect Crystal f content = Refused ("This does not appear to be a CRYSTAL14/17 output " +++ nl +++ "related to elastic constants calculations")) /\
  (mentions "ELASTCON OPTION" -> ~ mentions "FINAL RESULTS START" ->
    collect Crystal f content = Refused "This CRYSTAL14/17 SOEC calculation has not been completed") /\
  (~ mentions "SYMMETRIZED ELASTIC MODULI (kBar)" ->
    collect Vasp f content = Refused ("'" +++ f +++ "' does not appear to be a VASP output" +++ nl +++ "related to elastic moduli calculation")).
Proof.
  intros T mentions. unfold SoecInpgenModel.collect. rewrite T. cbn [negb].
  assert (EX : forall w, existsb (contains w) (readlines content) = true <-> mentions w) by (intros w; apply existsb_exists).
  assert (NO : forall w, ~ mentions w -> existsb (contains w) (readlines content) = false) by (intros w N; destruct (existsb _ _) eqn:E; [exfalso; apply N, EX, E|reflexivity]).
  unfold crystal_load, vasp_load. split; [|split].
  - intros N. now rewrite (NO _ N : existsb (contains soec_option) (readlines content) = false).
  - intros Y N. now rewrite (proj2 (EX _) Y : existsb (contains soec_option) (readlines content) = true), (NO _ N : existsb (contains soec_completed) (readlines content) = false).
  - intros N. unfold is_vasp_output. now rewrite (NO _ N : existsb (contains soec_clamped) (readlines content) = false).
Qed.
Example C82_reasons_instance : is_text "ELASTCON OPTION" = true ->
  collect Crystal "out" "ELASTCON OPTION" = Refused "This CRYSTAL14/17 SOEC calculation has not been completed".
Proof.
  intros T. apply (C82_reasons "out" _ T).
  - exists "ELASTCON OPTION". split; [left; reflexivity|reflexivity].
  - intros (l & I & C). repeat (destruct I as [I|I]; [subst l; discriminate C|]). destruct I.
Qed.
(** Unlike the calculations (C62), the generator asks nothing before it
    replaces a file that exists: the only question is the description. *)
Theorem C82_replaces_refuted k f o a w content old m rho : fs w f = File content -> collect k f content = Got m rho ->
  fs w (input_path f o) = File old ->
  exists v, command k f o (Ok a) w = (Ok tt, v) /\ fs v (input_path f o) = File (soec_text round_abs (job_of a) m rho) /\
    forall q, In (Question, q) (screen v) -> In (Question, q) (screen w) \/ q = description.
Proof.
  intros F C O. destruct (generated k f o a w content m rho F C) as (v & RUN & FS & SC); [rewrite O; discriminate|].
  exists v. split; [exact RUN|]. rewrite FS, update_same. split; [reflexivity|]. intros q. rewrite SC. intros I.
  apply in_app_or in I. destruct I as [I|I]; [now left|right].
  repeat (destruct I as [I|I]; [first [discriminate I|congruence]|]). destruct I.
Qed.
(** The file replaced may be the ab initio output itself. *)
Theorem C82_own_input_refuted k base a w content m rho : fs w (base +++ ".dat") = File content -> collect k (base +++ ".dat") content = Got m rho ->
  exists v, command k (base +++ ".dat") (Some base) (Ok a) w = (Ok tt, v) /\
    fs v (base +++ ".dat") = File (soec_text round_abs (job_of a) m rho).
Proof.
  intros F C. destruct (C82_replaces_refuted k (base +++ ".dat") (Some base) a w content content m rho F C F) as (v & RUN & FS & _). eauto.
Qed.
(** A blank description is accepted, and the file it gives cannot be read. *)
Theorem C82_blank_title_refuted f o a w content c rho x :
  fs w f = File content -> is_text content = true -> fs w (input_path f o) <> Dir ->
  crystal_load (readlines content) crystal_new = (c, SoecInterfaceModel.Completed) ->
  (forall i j, i < 6 -> j < 6 -> c_stiffness c i j = Num (x i j)) -> c_density c = Num rho ->
  no_newline a -> a <> "" -> strip a = "" ->
  exists v text, command Crystal f o (Ok a) w = (Ok tt, v) /\ fs v (input_path f o) = File text /\
    forall d, SoecIOModel.load (readlines text) d = (d, Raised "IndexError").
Proof.
  intros F T D E X R0 NL NE B.
  assert (C : collect Crystal f content = Got (c_stiffness c) (c_density c)).
  { unfold SoecInpgenModel.collect. rewrite T. cbn [negb]. rewrite E. reflexivity. }
  destruct (generated Crystal f o a w content _ _ F C D) as (v & RUN & FS & _). exists v, (SoecIOModel.write round_abs a x rho).
  split; [exact RUN|]. rewrite FS, update_same. assert (job_of a = a) as ->.
  { unfold job_of. destruct (String.eqb_spec a ""); [contradiction|reflexivity]. }
  split; [f_equal; now apply text_of_numbers|]. intros d. now apply C37_blank_title_refuted.
Qed.
End C82.

(** A CRYSTAL output with a complete table, in a directory where the generated
    file exists already. *)
Definition crystal_text : string := join_lines crystal_out.
Definition some_world (f : string) : world :=
  {| fs := fun p => if String.eqb p f then File crystal_text else if String.eqb p "out.dat" then File "old" else Absent; screen := [] |}.
Example C82_instance : let w := some_world "mgo.out" in
  exists c rho, fs w "mgo.out" = File crystal_text /\ fs w (input_path "mgo.out" (Some "out")) = File "old" /\
  crystal_load (readlines crystal_text) crystal_new = (c, SoecInterfaceModel.Completed) /\
  (forall i j, i <= j < 6 -> exists x, upper_printed (readlines crystal_text) i j (Num x)) /\ crystal_density (readlines crystal_text) = inl (Num rho) /\
  proper_title "" /\ proper_title "MgO, B3LYP" /\ no_newline "  " /\ strip "  " = "" /\
  input_path "mgo.out" None = "mgo_soec_input.dat".
Proof.
  destruct (crystal_load (readlines crystal_text) crystal_new) as [c st] eqn:E. exists c. eexists.
  assert (ST : snd (crystal_load (readlines crystal_text) crystal_new) = SoecInterfaceModel.Completed) by reflexivity.
  rewrite E in ST. cbn in ST. subst st. split; [reflexivity|]. split; [reflexivity|]. split; [reflexivity|].
  split.
  { intros i j H. clear E. do 6 (destruct i as [|i]; [do 6 (destruct j as [|j]; [first [exfalso; lia|do 3 eexists; split; [reflexivity|split; reflexivity]]|]); exfalso; lia|]). exfalso. lia. }
  split; [reflexivity|]. split; [apply default_title|]. split; [split; [reflexivity|exists "M"%char; split; reflexivity]|].
  repeat split; reflexivity.
Qed.
Example C82_vasp_instance : let lines := readlines (join_lines outcar) in
  exists m s, vasp_load lines (fun _ _ => Num 0) = (m, SoecInterfaceModel.Completed) /\ vasp_start_line lines = Some s /\
  (forall i j, i < 6 -> j < 6 -> exists x, printed lines s i j (Num x)) /\
  (forall i j x y, i < 6 -> j < 6 -> printed lines s i j x -> printed lines s j i y -> x = y).
Proof.
  intros lines. do 2 eexists. split; [reflexivity|]. split; [reflexivity|].
  assert (Q : exists x : nat -> nat -> fl, (forall i j, i < 6 -> j < 6 -> printed lines 3 i j (x i j)) /\ (forall i j, i < 6 -> j < 6 -> x i j = x j i) /\
     forall i j, i < 6 -> j < 6 -> exists y, x i j = Num y).
  { exists (fun i j => match nth_error (split (nth (i + 3) lines "")) (j + 1) with Some u => match parse_float u with Some w => w | None => NaN end | None => NaN end).
    split; [|split]; intros i j Hi Hj;
      do 6 (destruct i as [|i]; [do 6 (destruct j as [|j]; [first [reflexivity|eexists; reflexivity|do 2 eexists; split; [reflexivity|split; reflexivity]]|]); exfalso; lia|]); exfalso; lia. }
  destruct Q as (x & A & B & C). split.
  - intros i j Hi Hj. destruct (C i j Hi Hj) as [y Y]. exists y. rewrite <- Y. now apply A.
  - intros i j u v Hi Hj U V. rewrite (printed_unique _ _ _ _ _ _ U (A i j Hi Hj)), (printed_unique _ _ _ _ _ _ V (A j i Hj Hi)). now apply B.
Qed.

Print Assumptions C82_crystal.
Print Assumptions C82_vasp.
Print Assumptions C82_nothing_written.
Print Assumptions C82_exceptions.
Print Assumptions C82_messages.
Print Assumptions C82_directory.
Print Assumptions C82_reasons.
Print Assumptions C82_replaces_refuted.
Print Assumptions C82_own_input_refuted.
Print Assumptions C82_blank_title_refuted.
