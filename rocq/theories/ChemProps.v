(** Property C06. *)
From Coq Require Import String List ZArith Bool Lia.
From Verif Require Import ChemModel.
Import ListNotations.
Open Scope string_scope.
Open Scope list_scope.

Lemma fill_notin l : forall d z s, ~ In s l -> fill d z l s = d s.
Proof.
  induction l as [|a l IH]; intros d z s N; simpl; [reflexivity|].
  rewrite IH by (simpl in N; tauto). unfold dict_set.
  destruct (String.eqb_spec s a); [simpl in N; subst; tauto|reflexivity].
Qed.

Lemma fill_spec l : NoDup l -> forall d z s n,
  nth_error l n = Some s -> fill d z l s = Some (z + Z.of_nat n)%Z.
Proof.
  induction 1 as [|a l Hn Hd IH]; intros d z s n E; [destruct n; discriminate|].
  destruct n as [|n]; simpl in *.
  - injection E as <-. rewrite fill_notin by assumption. unfold dict_set.
    rewrite String.eqb_refl. f_equal. lia.
  - rewrite (IH _ _ _ _ E). f_equal. lia.
Qed.

Fixpoint nodupb (l : list string) : bool :=
  match l with [] => true | a :: r => negb (existsb (String.eqb a) r) && nodupb r end.
Lemma nodupb_ok l : nodupb l = true -> NoDup l.
Proof.
  induction l as [|a l IH]; intros H; [constructor|]. simpl in H.
  apply andb_prop in H as [H1 H2]. constructor; auto.
  intros I. apply negb_true_iff in H1.
  assert (existsb (String.eqb a) l = true); [|congruence].
  apply existsb_exists. exists a. split; [exact I|apply String.eqb_refl].
Qed.

Lemma symbols_nodup : NoDup chemical_symbols.
Proof. apply nodupb_ok. vm_compute. reflexivity. Qed.

(** IUPAC symbols with their atomic numbers, in alphabetical order: the
    specification of the table, written without reference to its order. *)
Definition elements : list (string * Z) := (
  [ ("Ac", 89); ("Ag", 47); ("Al", 13); ("Am", 95); ("Ar", 18); ("As", 33); ("At", 85);
    ("Au", 79); ("B", 5); ("Ba", 56); ("Be", 4); ("Bh", 107); ("Bi", 83); ("Bk", 97);
    ("Br", 35); ("C", 6); ("Ca", 20); ("Cd", 48); ("Ce", 58); ("Cf", 98); ("Cl", 17);
    ("Cm", 96); ("Cn", 112); ("Co", 27); ("Cr", 24); ("Cs", 55); ("Cu", 29); ("Db", 105);
    ("Ds", 110); ("Dy", 66); ("Er", 68); ("Es", 99); ("Eu", 63); ("F", 9); ("Fe", 26);
    ("Fl", 114); ("Fm", 100); ("Fr", 87); ("Ga", 31); ("Gd", 64); ("Ge", 32); ("H", 1);
    ("He", 2); ("Hf", 72); ("Hg", 80); ("Ho", 67); ("Hs", 108); ("I", 53); ("In", 49);
    ("Ir", 77); ("K", 19); ("Kr", 36); ("La", 57); ("Li", 3); ("Lr", 103); ("Lu", 71);
    ("Lv", 116); ("Mc", 115); ("Md", 101); ("Mg", 12); ("Mn", 25); ("Mo", 42); ("Mt", 109);
    ("N", 7); ("Na", 11); ("Nb", 41); ("Nd", 60); ("Ne", 10); ("Nh", 113); ("Ni", 28);
    ("No", 102); ("Np", 93); ("O", 8); ("Og", 118); ("Os", 76); ("P", 15); ("Pa", 91);
    ("Pb", 82); ("Pd", 46); ("Pm", 61); ("Po", 84); ("Pr", 59); ("Pt", 78); ("Pu", 94);
    ("Ra", 88); ("Rb", 37); ("Re", 75); ("Rf", 104); ("Rg", 111); ("Rh", 45); ("Rn", 86);
    ("Ru", 44); ("S", 16); ("Sb", 51); ("Sc", 21); ("Se", 34); ("Sg", 106); ("Si", 14);
    ("Sm", 62); ("Sn", 50); ("Sr", 38); ("Ta", 73); ("Tb", 65); ("Tc", 43); ("Te", 52);
    ("Th", 90); ("Ti", 22); ("Tl", 81); ("Tm", 69); ("Ts", 117); ("U", 92); ("V", 23);
    ("W", 74); ("Xe", 54); ("Y", 39); ("Yb", 70); ("Zn", 30); ("Zr", 40) ])%Z.

(** Valid atomic numbers and symbols are in bijection. *)
Theorem C06_number_symbol_number z :
  (0 <= z <= 118)%Z ->
  exists s, number2symbol z = Some s /\ symbol2number s = Some z.
Proof.
  intros H. unfold number2symbol, py_index, symbol2number, atomic_numbers.
  destruct (Z.leb_spec 0 z); [|lia].
  destruct (nth_error chemical_symbols (Z.to_nat z)) as [s|] eqn:E.
  - exists s. split; [reflexivity|].
    rewrite (fill_spec _ symbols_nodup _ _ _ _ E). f_equal. lia.
  - apply nth_error_None in E. change (length chemical_symbols) with 119%nat in E. lia.
Qed.

Theorem C06_symbol_number_symbol s z :
  symbol2number s = Some z -> number2symbol z = Some s /\ (0 <= z <= 118)%Z.
Proof.
  unfold symbol2number, atomic_numbers. intros E.
  destruct (In_dec string_dec s chemical_symbols) as [I|N].
  - apply In_nth_error in I as [n En].
    rewrite (fill_spec _ symbols_nodup _ _ _ _ En) in E. injection E as <-.
    assert (n < length chemical_symbols)%nat by (apply nth_error_Some; congruence).
    change (length chemical_symbols) with 119%nat in H.
    split; [|lia]. unfold number2symbol, py_index.
    change (0 + Z.of_nat n)%Z with (Z.of_nat n). destruct (Z.leb_spec 0 (Z.of_nat n)); [|lia].
    rewrite Nat2Z.id. exact En.
  - rewrite fill_notin in E by exact N. discriminate.
Qed.

(** Domain: symbols outside the table raise, numbers above 118 or below -119
    raise, and negative numbers wrap around. *)
Theorem C06_domain :
  (forall s, symbol2number s <> None <-> In s chemical_symbols) /\
  (forall z, (number2symbol z <> None <-> (-119 <= z <= 118)%Z)) /\
  (forall z, (-119 <= z < 0)%Z -> number2symbol z = number2symbol (z + 119)).
Proof.
  split; [|split].
  - intros s. unfold symbol2number, atomic_numbers. split.
    + intros H. destruct (In_dec string_dec s chemical_symbols) as [I|N]; [exact I|].
      rewrite fill_notin in H by exact N. congruence.
    + intros I. apply In_nth_error in I as [n En].
      rewrite (fill_spec _ symbols_nodup _ _ _ _ En). discriminate.
  - intros z. unfold number2symbol, py_index.
    change (length chemical_symbols) with 119%nat.
    destruct (Z.leb_spec 0 z).
    + rewrite nth_error_Some. change (length chemical_symbols) with 119%nat. lia.
    + destruct (Z.leb_spec (- Z.of_nat 119) z).
      * rewrite nth_error_Some. change (length chemical_symbols) with 119%nat. lia.
      * split; [congruence|lia].
  - intros z H. unfold number2symbol, py_index.
    change (length chemical_symbols) with 119%nat.
    destruct (Z.leb_spec 0 z); [lia|]. destruct (Z.leb_spec (- Z.of_nat 119) z); [|lia].
    destruct (Z.leb_spec 0 (z + 119)); [|lia]. reflexivity.
Qed.

(** Every element has its IUPAC atomic number, in both directions, and beside
    the elements the only accepted symbol is the placeholder X (number 0). *)
Theorem C06_IUPAC_numbers :
  (forall s z, In (s, z) elements -> symbol2number s = Some z /\ number2symbol z = Some s) /\
  (forall s z, symbol2number s = Some z -> In (s, z) elements \/ (s = "X" /\ z = 0%Z)) /\
  length elements = 118.
Proof.
  assert (A : forall s z, In (s, z) elements -> symbol2number s = Some z).
  { intros s z I.
    assert (F : forallb (fun p => match symbol2number (fst p) with Some k => Z.eqb k (snd p) | None => false end)
                  elements = true) by (vm_compute; reflexivity).
    rewrite forallb_forall in F. specialize (F _ I). simpl in F.
    destruct (symbol2number s); [|discriminate]. apply Z.eqb_eq in F. now subst. }
  split; [|split; [|reflexivity]].
  - intros s z I. split; [auto|]. exact (proj1 (C06_symbol_number_symbol s z (A s z I))).
  - intros s z E. assert (N : symbol2number s <> None) by congruence.
    apply (proj1 C06_domain) in N.
    assert (F : forallb (fun x => existsb (fun p => String.eqb (fst p) x) elements || String.eqb x "X")%bool
                  chemical_symbols = true) by (vm_compute; reflexivity).
    rewrite forallb_forall in F. specialize (F _ N). apply orb_prop in F as [F|F].
    + left. apply existsb_exists in F as ((s', z') & I & Q). simpl in Q. apply String.eqb_eq in Q. subst s'.
      specialize (A _ _ I). congruence.
    + right. apply String.eqb_eq in F. subst s. split; [reflexivity|].
      assert (X0 : symbol2number "X" = Some 0%Z) by (vm_compute; reflexivity). congruence.
Qed.

Example C06_iron : number2symbol 26 = Some "Fe" /\ symbol2number "Fe" = Some 26%Z
  /\ number2symbol (-1) = Some "Og" /\ symbol2number "fe" = None /\ number2symbol 119 = None.
Proof. repeat split. Qed.

Print Assumptions C06_number_symbol_number.
Print Assumptions C06_symbol_number_symbol.
Print Assumptions C06_domain.
Print Assumptions C06_IUPAC_numbers.
