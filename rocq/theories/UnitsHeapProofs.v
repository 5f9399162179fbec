From Coq Require Import String List Reals Bool Lia Lra Arith.
From Verif Require Import Py UnitsModel UnitsSpec UnitsProofs UnitsHeapModel.
Import ListNotations.
Open Scope R_scope.

(** [h'] contains every array of [h], unchanged. *)
Definition preserves (h h' : heap) : Prop :=
  forall r a, nth_error h r = Some a -> nth_error h' r = Some a.

Lemma preserves_refl h : preserves h h. Proof. intros r a E; exact E. Qed.
Lemma preserves_trans h1 h2 h3 : preserves h1 h2 -> preserves h2 h3 -> preserves h1 h3.
Proof. intros A B r a E. apply B, A, E. Qed.
Lemma preserves_app h t : preserves h (h ++ t).
Proof. intros r a E. rewrite nth_error_app1; [exact E|]. apply nth_error_Some. congruence. Qed.

Lemma half_preserves base f h r s : preserves h (fst (half base f h r s)).
Proof.
  unfold half. destruct (mem (lower s) base); [apply preserves_refl|].
  destruct (f 0 s); [|apply preserves_refl]. unfold arith.
  destruct (nth_error h r); simpl; [apply preserves_app|apply preserves_refl].
Qed.

Lemma convert_preserves base to from h v old new :
  preserves h (fst (convert_h base to from h v old new)).
Proof.
  unfold convert_h. destruct (asarray h v) as [h1 r] eqn:E.
  assert (A : preserves h h1).
  { destruct v; simpl in E; injection E as <- <-; [apply preserves_refl|apply preserves_app]. }
  pose proof (half_preserves base to h1 r old) as B.
  destruct (half base to h1 r old) as [h2 o] eqn:E2. simpl in B.
  eapply preserves_trans; [exact A|].
  destruct o; try exact B.
  eapply preserves_trans; [exact B|]. apply half_preserves.
Qed.

(** ** In-place functions *)
Lemma store_same h r a : nth_error h r <> None -> nth_error (store h r a) r = Some a.
Proof.
  revert r; induction h; intros [|r] E; simpl in *; try congruence. now apply IHh.
Qed.
Lemma store_other h r r' a : r <> r' -> nth_error (store h r a) r' = nth_error h r'.
Proof.
  revert r r'; induction h; intros [|r] [|r'] E; simpl in *; try congruence.
  apply IHh. congruence.
Qed.
Lemma store_length h r a : length (store h r a) = length h.
Proof. revert r; induction h; intros [|r]; simpl; auto. Qed.

Definition outcome_of (b : bool) (r : ref) : outcome := if b then Ret r else Unsupported.

Lemma run_inplace_float l : forall h r a,
  nth_error h r = Some a -> dt a = DFloat ->
  exists h', run_inplace l h r = (h', outcome_of (forallb (fun o => match o with Some _ => true | None => false end) l) r)
    /\ nth_error h' r = Some {| dt := DFloat; elems := map (fun x => fst (run_scalings l x)) (elems a) |}
    /\ length h' = length h
    /\ forall r', r' <> r -> nth_error h' r' = nth_error h r'.
Proof.
  induction l as [|[u|] l IH]; intros h r a E D; simpl.
  - exists h. split; [reflexivity|]. split; [|split; [reflexivity|auto]].
    rewrite map_id. destruct a; simpl in *; subst; exact E.
  - unfold inplace. rewrite E, D.
    set (a' := {| dt := DFloat; elems := map (apply_scaling u) (elems a) |}).
    destruct (IH (store h r a') r a') as (h' & R1 & R2 & R3 & R4).
    { apply store_same. congruence. }
    { reflexivity. }
    exists h'. rewrite R1. split; [reflexivity|]. split.
    { rewrite R2. subst a'; simpl. now rewrite map_map. }
    split. { now rewrite R3, store_length. }
    intros r' N. rewrite R4; auto. apply store_other. auto.
  - exists h. split; [reflexivity|]. split; [|split; [reflexivity|auto]].
    rewrite map_id. destruct a; simpl in *; subst; exact E.
Qed.

Lemma run_inplace_int l h r a :
  nth_error h r = Some a -> dt a = DInt ->
  exists o, run_inplace l h r = (h, o).
Proof.
  intros E D. destruct l as [|[u|] l]; simpl; eauto.
  unfold inplace. rewrite E, D. eauto.
Qed.

Lemma run_scalings_all l x :
  snd (run_scalings l x) = forallb (fun o => match o with Some _ => true | None => false end) l.
Proof. revert x; induction l as [|[u|] l IH]; intros; simpl; auto. Qed.

(** ** Values returned by the out-of-place converters *)
(** [f] is total-or-nothing in its name argument, and the identity on base names. *)
Definition uniform (base : list string) (f : R -> string -> option R) : Prop :=
  forall x s, (f x s = None <-> f 0 s = None) /\ (mem (lower s) base = true -> f x s = Some x).

Lemma half_values base f h r a s :
  uniform base f -> nth_error h r = Some a ->
  match f 0 s with
  | None => half base f h r s = (h, Unsupported)
  | Some _ => exists h' r' a', half base f h r s = (h', Ret r') /\ nth_error h' r' = Some a' /\
                map Some (elems a') = map (fun x => f x s) (elems a)
  end.
Proof.
  intros U E. unfold half. destruct (mem (lower s) base) eqn:M.
  - destruct (U 0 s) as [_ V]. rewrite (V M).
    exists h, r, a. repeat split; auto. apply map_ext. intros x.
    destruct (U x s) as [_ Vx]. now rewrite (Vx M).
  - destruct (f 0 s) as [z|] eqn:Z; [|reflexivity].
    unfold arith. rewrite E. unfold alloc.
    exists (h ++ [{| dt := DFloat; elems := map (fun x => match f x s with Some y => y | None => 0 end) (elems a) |}]),
           (length h), {| dt := DFloat; elems := map (fun x => match f x s with Some y => y | None => 0 end) (elems a) |}.
    split; [reflexivity|]. split.
    + rewrite nth_error_app2, Nat.sub_diag by lia. reflexivity.
    + simpl. rewrite map_map. apply map_ext. intros x.
      destruct (f x s) eqn:F; [reflexivity|]. destruct (U x s) as [[U1 _] _].
      specialize (U1 F). congruence.
Qed.

Lemma convert_h_values base to from :
  uniform base to -> uniform base from ->
  forall h r a u v, nth_error h r = Some a ->
    match (match to 0 u with None => None | Some e => from e v end) with
    | None => snd (convert_h base to from h (Nd r) u v) = Unsupported
    | Some _ => exists h' r' a', convert_h base to from h (Nd r) u v = (h', Ret r') /\
         nth_error h' r' = Some a' /\
         map Some (elems a') =
           map (fun x => match to x u with None => None | Some e => from e v end) (elems a)
    end.
Proof.
  intros U1 U2 h r a u v E. unfold convert_h. cbn [asarray].
  pose proof (half_values base to h r a u U1 E) as A.
  destruct (to 0 u) as [e|] eqn:T; [|now rewrite A].
  destruct A as (h1 & r1 & a1 & A1 & A2 & A3). rewrite A1.
  pose proof (half_values base from h1 r1 a1 v U2 A2) as B.
  destruct (from e v) as [y|] eqn:F.
  - destruct (from 0 v) as [z|] eqn:Z.
    + destruct B as (h2 & r2 & a2 & B1 & B2 & B3).
      exists h2, r2, a2. rewrite B1. repeat split; auto. rewrite B3.
      clear - A3. revert A3. generalize (elems a1), (elems a).
      induction l; intros [|x l'] A; simpl in *; try discriminate; auto.
      injection A as A A'. rewrite <- A. f_equal. auto.
    + destruct (U2 e v) as [[_ V] _]. rewrite (V Z) in F. discriminate.
  - destruct (U2 e v) as [[V _] _]. rewrite (V F) in B. now rewrite B.
Qed.

Ltac base_unit s :=
  unfold to_kelvin, from_kelvin, to_hartree, from_hartree, to_pascal, from_pascal,
    to_wavenumber, from_wavenumber, to_metre, from_metre, to_metre3, from_metre3;
  unfold mem; generalize (lower_idem s); generalize (lower s);
  let k := fresh "k" in intro k; let Hk := fresh "Hk" in intro Hk;
  cbn [existsb]; split_name k; try discriminate Hk;
  (split; [split; intro; (discriminate || reflexivity || assumption) | intro; (discriminate || reflexivity)]).
