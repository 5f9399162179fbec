(** C93: the works each command asks to cite, in full. *)
From Coq Require Import String Ascii List Bool Arith.
From Verif Require Import DecimalModel CliModel CitationsModel RunLogProps.
From Verif Require Py.
Import ListNotations.
Open Scope string_scope.
Open Scope list_scope.
Open Scope nat_scope.

(** Authors, title, journal and address of each work. *)
Definition works : list (string * string) :=
  [(quantas_doi, "Gianfranco Ulian and Giovanni Valdre' 'QUANTAS, a Python software for the analysis of solids from ab initio quantum mechanical simulations and experimental data' Journal of Applied Crystallography 55, 386-396 (2022) http://dx.doi.org/10.1107/S1600576722000085");
   (apatite_doi, "Gianfranco Ulian and Giovanni Valdre' 'Equation of state of hexagonal hydroxylapatite (P63) as obtained from density functional theory simulations.' International Journal of Quantum Chemistry, 15, e25553 (2018) https://doi.org/10.1002/qua.25553");
   (talc_doi, "Gianfranco Ulian, Sergio Tosoni and Giovanni Valdrè 'The compressional behaviour and the mechanical properties of talc [Mg3Si4O10(OH)2]: a density functional theory investigation.' Physics and Chemistry of Minerals 41, 639-650 (2014) https://doi.org/10.1007/s00269-014-0677-x");
   (clinochlore_doi, "Gianfranco Ulian, Daniele Moro and Giovanni Valdre' 'First principle investigation of the mechanical properties of natural mineral layered nanocomposite: clinochlore as a model system.' Composite Structures, 202, 551-558 (2018). https://doi.org/10.1016/j.compstruct.2018.02.089");
   (elate_doi, "Romain Gaillac, Pluton Pullumbi and François-Xavier Coudert 'ELATE: an open-source online application for analysis and visualization of elastic tensors.' Journal of Physics: Condensed Matter 28, 275201 (2016) https://doi.org/10.1088/0953-8984/28/27/275201");
   (christoffel_doi, "Jan W. Jaeken, Stefaan Cottenier 'Solving the Christoffel equation: Phase and group velocities.' Computer Physics Communications, 207, 445-51 (2016) https://doi.org/10.1016/j.cpc.2016.06.014")].
(** The words of the work stand in the text, in this order and next to each other. *)
Definition cites (text work : string) : Prop := exists before after, Py.split text = before ++ Py.split work ++ after.
Fixpoint starts_with (a b : list string) : bool :=
  match a, b with [], _ => true | x :: a, y :: b => (String.eqb x y && starts_with a b)%bool | _, [] => false end.
Fixpoint inside (a b : list string) : bool := if starts_with a b then true else match b with [] => false | _ :: b => inside a b end.
Lemma starts_with_app a b : starts_with a b = true -> exists r, b = a ++ r.
Proof.
  revert b; induction a as [|x a IH]; intros b H; [now exists b|]. destruct b as [|y b]; [discriminate|]. cbn [starts_with] in H. apply andb_prop in H as (E & H). apply String.eqb_eq in E as ->.
  destruct (IH b H) as (r & ->). now exists r.
Qed.
Lemma inside_app a b : inside a b = true -> exists l r, b = l ++ a ++ r.
Proof.
  induction b as [|y b IH]; cbn [inside]; destruct (starts_with a _) eqn:E; intros H.
  - destruct (starts_with_app _ _ E) as (r & ->). now exists [], r.
  - discriminate.
  - destruct (starts_with_app _ _ E) as (r & ->). now exists [], r.
  - destruct (IH H) as (l & r & ->). now exists (y :: l), r.
Qed.
Lemma works_checked : forallb (fun td => forallb (fun w => (negb (existsb (String.eqb (fst w)) (snd td)) || inside (Py.split (snd w)) (Py.split (page (references (fst td)))))%bool) works) credits = true.
Proof. vm_compute. reflexivity. Qed.
Theorem C93_works t ds doi work : In (t, ds) credits -> In doi ds -> In (doi, work) works -> cites (page (references t)) work.
Proof.
  intros H D W. pose proof works_checked as C. rewrite forallb_forall in C. specialize (C _ H). cbn [fst snd] in C. rewrite forallb_forall in C. specialize (C _ W). cbn [fst snd] in C.
  apply orb_prop in C as [C|C]; [|exact (inside_app _ _ C)]. exfalso. apply negb_true_iff in C. assert (E : existsb (String.eqb doi) ds = true) by (apply existsb_exists; exists doi; split; [exact D|apply String.eqb_refl]). congruence.
Qed.
Example C93_works_instance : cites (page (references eosfit_texts)) (snd (nth 2 works ("", ""))) /\ inside (Py.split (snd (nth 2 works ("", "")))) (Py.split (page (references qha_texts))) = false.
Proof. split; [apply (C93_works eosfit_texts [quantas_doi; talc_doi] talc_doi); cbn; tauto|vm_compute; reflexivity]. Qed.

Print Assumptions C93_works.
