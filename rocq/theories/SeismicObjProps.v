(** C51, C52, C55: caches of the Seismic object, direction setters, sphere loop. *)
From Coq Require Import Reals List Arith ZArith String Lia Lra Psatz Ratan Permutation.
From Verif Require Import SymmetryModel TensorModel TensorProps AverageProps QhaRunModel SeismicModel SeismicProps SeismicIsoProps.
Import ListNotations.
Open Scope string_scope.
Open Scope list_scope.
Open Scope R_scope.

Section Cache.
Variable eigh : mat3 -> (nat -> R) * mat3.
Variables pinv inv : mat3 -> mat3.
Variables (C S : mat6) (density : R).
Let T := Cmat C density.
Let hist := history eigh pinv inv C S density.
Let asks := ask eigh pinv inv C S density.

(** ** Specification: the direction in force, and what belongs to a direction *)
Definition sets (cur : option vec) (a : op) : option vec :=
  match a with
  | Spherical t p => Some (vector t p)
  | Cartesian v => Some (fun i => v i / norm v)
  | Clear => None
  | _ => cur
  end.
Definition direction_after (l : list op) : option vec := fold_left sets l None.
Definition lam_at (d : vec) : nat -> R := fst (sorted_eigen eigh (christoffel T d)).
Definition ev_at (d : vec) : nat -> vec := snd (sorted_eigen eigh (christoffel T d)).
Definition group_at (d : vec) : group_data := group d (phase (lam_at d)) (ev_at d) (gradient T d).
Definition hess_at (d : vec) : ten3 :=
  hessian_eigen pinv (hessian_christoffel_matrix T) (christoffel T d) (gradient T d) (lam_at d) (ev_at d).
Definition enhancement_at (d : vec) : vec :=
  enhancement_of inv d (hess_at d) (phase (lam_at d)) (g_abs (group_at d)) (g_vel (group_at d)).
Definition belongs (q : query) (d : vec) : value :=
  match q with
  | QGrad => Ten (gradient T d)
  | QEigenval => Vec (lam_at d)
  | QEigenvec => Vecs (ev_at d)
  | QPhase => Vec (phase (lam_at d))
  | QRelPhase => Vec (fun i => phase (lam_at d) i / isotropic_velocity C S density i)
  | QHessian => Ten (hess_at d)
  | QGroup pick => Mat (pick (group_at d))
  | QEnhancement => Vec (enhancement_at d)
  end.

Record coherent (o : obj) (d : vec) : Prop := {
  k_d : o_direction o = Some d; k_M : o_M o = Some (christoffel T d);
  k_g : c_grad_M o = None \/ c_grad_M o = Some (gradient T d);
  k_e : (c_eigenval o = None /\ c_eigenvec o = None) \/ (c_eigenval o = Some (lam_at d) /\ c_eigenvec o = Some (ev_at d));
  k_grp : c_group o = None \/ c_group o = Some (group_at d) }.
Definition matches (o : obj) (cur : option vec) : Prop :=
  match cur with Some d => coherent o d | None => o = clear end.

Lemma point_coherent d t p : coherent (point C density d t p) d.
Proof. split; cbn; auto. Qed.
Lemma solve_ok o d : coherent o d -> exists o', solve eigh o = Ok o' /\ coherent o' d /\ c_eigenval o' = Some (lam_at d) /\ c_eigenvec o' = Some (ev_at d).
Proof.
  intros [A B D E F]. unfold solve. rewrite B. unfold lam_at, ev_at.
  destruct (sorted_eigen eigh (christoffel T d)) as [l v] eqn:Q. cbn [fst snd].
  eexists. split; [reflexivity|]. split; [|cbn; auto].
  split; cbn; auto. right. unfold lam_at, ev_at. rewrite Q. auto.
Qed.
Lemma ensure_ok o d : coherent o d -> exists o', ensure_eigen eigh o = Ok o' /\ coherent o' d /\ c_eigenval o' = Some (lam_at d) /\ c_eigenvec o' = Some (ev_at d).
Proof.
  intros K. unfold ensure_eigen. destruct (k_e _ _ K) as [[-> _]|[E1 E2]].
  - now apply solve_ok.
  - rewrite E1. exists o. auto.
Qed.
Lemma eigenval_ok o d : coherent o d -> exists o', eigenval eigh o = Ok (o', lam_at d) /\ coherent o' d.
Proof.
  intros K. unfold eigenval. destruct (ensure_ok o d K) as (o' & -> & K' & E1 & E2). cbn [bind]. rewrite E1. cbn [need bind]. eauto.
Qed.
Lemma eigenvec_ok o d : coherent o d -> exists o', eigenvec eigh o = Ok (o', ev_at d) /\ coherent o' d.
Proof.
  intros K. unfold eigenvec. destruct (ensure_ok o d K) as (o' & -> & K' & E1 & E2). cbn [bind]. rewrite E2. cbn [need bind]. eauto.
Qed.
Lemma phase_ok o d : coherent o d -> exists o', phase_velocity eigh o = Ok (o', phase (lam_at d)) /\ coherent o' d.
Proof.
  intros K. unfold phase_velocity. destruct (ensure_ok o d K) as (o' & -> & K' & E1 & E2). cbn [bind]. rewrite E1. cbn [need bind]. eauto.
Qed.
Lemma grad_ok o d : coherent o d -> exists o', grad_M C density o = Ok (o', gradient T d) /\ coherent o' d.
Proof.
  intros K. unfold grad_M. destruct (k_g _ _ K) as [->| ->].
  - rewrite (k_d _ _ K). cbn [need bind]. eexists. split; [reflexivity|]. destruct K. split; cbn; auto.
  - eauto.
Qed.
Lemma hess_ok o d : coherent o d -> exists o', hessian_eigenval eigh pinv C density o = Ok (o', hess_at d) /\ coherent o' d.
Proof.
  intros K. unfold hessian_eigenval.
  destruct (eigenvec_ok o d K) as (o1 & -> & K1). cbn [bind].
  destruct (eigenval_ok o1 d K1) as (o2 & -> & K2). cbn [bind].
  rewrite (k_M _ _ K2). cbn [need bind].
  destruct (grad_ok o2 d K2) as (o3 & -> & K3). cbn [bind]. eauto.
Qed.
Lemma solve_group_ok o d : coherent o d -> exists o', solve_group eigh C density o = Ok o' /\ coherent o' d /\ c_group o' = Some (group_at d).
Proof.
  intros K. unfold solve_group.
  destruct (phase_ok o d K) as (o1 & -> & K1). cbn [bind].
  destruct (eigenvec_ok o1 d K1) as (o2 & -> & K2). cbn [bind].
  destruct (grad_ok o2 d K2) as (o3 & -> & K3). cbn [bind].
  rewrite (k_d _ _ K3). cbn [need bind]. eexists. split; [reflexivity|]. split; [|reflexivity].
  destruct K3. split; cbn; auto.
Qed.
Lemma group_ok o d : coherent o d -> exists o', group_values eigh C density o = Ok (o', group_at d) /\ coherent o' d.
Proof.
  intros K. unfold group_values. destruct (k_grp _ _ K) as [E|E]; rewrite E.
  - destruct (solve_group_ok o d K) as (o' & -> & K' & E'). cbn [bind]. rewrite E'. cbn [need bind]. eauto.
  - cbn [bind]. rewrite E. cbn [need bind]. eauto.
Qed.
Lemma enh_ok o d : coherent o d -> exists o', enhancement eigh pinv inv C density o = Ok (o', enhancement_at d) /\ coherent o' d.
Proof.
  intros K. unfold enhancement.
  destruct (hess_ok o d K) as (o1 & -> & K1). cbn [bind].
  destruct (phase_ok o1 d K1) as (o2 & -> & K2). cbn [bind].
  destruct (group_ok o2 d K2) as (o3 & -> & K3). cbn [bind].
  rewrite (k_d _ _ K3). cbn [need bind]. eexists. split; [reflexivity|]. destruct K3. split; cbn; auto.
Qed.
Lemma ask_ok q o d : coherent o d -> exists o', asks q o = Ok (o', belongs q d) /\ coherent o' d.
Proof.
  intros K. unfold asks, ask, lift. destruct q.
  - destruct (grad_ok o d K) as (o' & -> & K'). cbn [bind]. eauto.
  - destruct (eigenval_ok o d K) as (o' & -> & K'). cbn [bind]. eauto.
  - destruct (eigenvec_ok o d K) as (o' & -> & K'). cbn [bind]. eauto.
  - destruct (phase_ok o d K) as (o' & -> & K'). cbn [bind]. eauto.
  - unfold rel_phase_velocity. destruct (ensure_ok o d K) as (o1 & -> & K1 & _). cbn [bind].
    destruct (phase_ok o1 d K1) as (o' & -> & K'). cbn [bind]. eauto.
  - destruct (hess_ok o d K) as (o' & -> & K'). cbn [bind]. eauto.
  - destruct (group_ok o d K) as (o' & -> & K'). cbn [bind]. eauto.
  - destruct (enh_ok o d K) as (o' & -> & K'). cbn [bind]. eauto.
Qed.
Definition nothing_set (q : query) : string := match q with QGrad => "TypeError" | _ => "LinAlgError" end.
Lemma ask_none q : asks q clear = Raises (nothing_set q).
Proof. destruct q; reflexivity. Qed.
Lemma step_matches o cur a : matches o cur -> matches (step eigh pinv inv C S density o a) (sets cur a).
Proof.
  intros M. destruct a as [t p|v| | | |q]; cbn [step sets].
  - apply point_coherent.
  - apply point_coherent.
  - reflexivity.
  - destruct cur as [d|]; cbn [matches] in *.
    + destruct (solve_ok o d M) as (o' & -> & K & _). exact K.
    + subst o. reflexivity.
  - destruct cur as [d|]; cbn [matches] in *.
    + destruct (solve_group_ok o d M) as (o' & -> & K & _). exact K.
    + subst o. reflexivity.
  - destruct cur as [d|]; cbn [matches] in *.
    + destruct (ask_ok q o d M) as (o' & E & K). unfold asks in E. rewrite E. exact K.
    + subst o. pose proof (ask_none q) as E. unfold asks in E. rewrite E. reflexivity.
Qed.
Lemma history_matches l : matches (hist l) (direction_after l).
Proof.
  unfold hist, history, direction_after.
  assert (G : forall l o cur, matches o cur -> matches (fold_left (step eigh pinv inv C S density) l o) (fold_left sets l cur)).
  { induction l0 as [|a r IH]; intros o cur M; [exact M|]. cbn [fold_left]. apply IH, step_matches, M. }
  apply G. reflexivity.
Qed.
(** ** C51 *)
Theorem C51_never_stale l q d : direction_after l = Some d ->
  exists o, asks q (hist l) = Ok (o, belongs q d).
Proof.
  intros E. pose proof (history_matches l) as M. rewrite E in M. destruct (ask_ok q _ d M) as (o & Q & _). eauto.
Qed.
Theorem C51_no_direction l q : direction_after l = None -> asks q (hist l) = Raises (nothing_set q).
Proof. intros E. pose proof (history_matches l) as M. rewrite E in M. cbn in M. rewrite M. apply ask_none. Qed.
(** What was asked or solved before makes no difference. *)
Theorem C51_history_irrelevant l l' q v v' :
  direction_after l = direction_after l' ->
  (exists o, asks q (hist l) = Ok (o, v)) -> (exists o, asks q (hist l') = Ok (o, v')) -> v = v'.
Proof.
  intros E [o A] [o' A']. destruct (direction_after l) as [d|] eqn:D.
  - destruct (C51_never_stale l q d D) as [o1 Q]. destruct (C51_never_stale l' q d (eq_sym E)) as [o2 Q'].
    rewrite Q in A. rewrite Q' in A'. congruence.
  - rewrite (C51_no_direction l q D) in A. discriminate.
Qed.
Example C51_instance t p (v : vec) : exists o,
  asks QEnhancement (hist [Spherical t p; Ask QPhase; Ask QEnhancement; Cartesian v; Ask (QGroup g_vel); Ask QHessian]) = Ok (o, Vec (enhancement_at (fun i => v i / norm v))).
Proof. apply (C51_never_stale _ QEnhancement). reflexivity. Qed.
Example C51_instance_none t p : asks QPhase (hist [Spherical t p; Ask QPhase; Clear]) = Raises "LinAlgError".
Proof. apply (C51_no_direction _ QPhase). reflexivity. Qed.

(** ** The row stored for one node (C55) *)
Theorem C55_row t p i : exists l, row eigh pinv inv C S density (spherical_direction C density t p) i = Ok l /\
  let d := vector t p in let v := phase (lam_at d) i in let g := group_at d in
  let iso := isotropic_velocity C S density i in
  l = [t; p; v; 100 * (v / iso - 1); ev_at d i 0%nat; ev_at d i 1%nat; ev_at d i 2%nat;
       g_abs g i; 100 * (g_abs g i / iso - 1); g_vel g i 0%nat; g_vel g i 1%nat; g_vel g i 2%nat;
       180 * g_power g i / PI; enhancement_at d i].
Proof.
  set (d := vector t p).
  assert (AN : forall o, coherent o d -> o_theta o = Some t -> o_phi o = Some p -> True) by auto. clear AN.
  (* angles survive every method *)
  unfold spherical_direction, row. fold d.
  pose proof (point_coherent d t p) as K0.
  assert (A0 : o_theta (point C density d t p) = Some t /\ o_phi (point C density d t p) = Some p) by (split; reflexivity).
  set (o := point C density d t p) in *. clearbody o.
  assert (SV : forall o o', solve eigh o = Ok o' -> o_theta o' = o_theta o /\ o_phi o' = o_phi o).
  { intros x y. unfold solve. destruct (o_M x) as [M|]; [|discriminate]. destruct (sorted_eigen eigh M) as [a b].
    intros Q. assert (INJ : forall a b : obj, Ok a = Ok b -> b = a) by congruence. apply INJ in Q. subst y. split; reflexivity. }
  assert (EN : forall o o', ensure_eigen eigh o = Ok o' -> o_theta o' = o_theta o /\ o_phi o' = o_phi o).
  { intros x y. unfold ensure_eigen. destruct (c_eigenval x); [intros Q; replace y with x by congruence; auto|apply SV]. }
  assert (NB : forall A B (x : outcome A) (f : A -> outcome B) y, bind x f = Ok y -> exists a, x = Ok a /\ f a = Ok y).
  { intros A B x f y. destruct x; cbn; [eauto|discriminate]. }
  assert (PV : forall o o' v, phase_velocity eigh o = Ok (o', v) -> o_theta o' = o_theta o /\ o_phi o' = o_phi o).
  { intros x y v Q. unfold phase_velocity in Q. apply NB in Q. destruct Q as (a & Q1 & Q2). apply EN in Q1.
    destruct (c_eigenval a); cbn in Q2; [|discriminate]. replace y with a by congruence. exact Q1. }
  assert (EL : forall o o' v, eigenval eigh o = Ok (o', v) -> o_theta o' = o_theta o /\ o_phi o' = o_phi o).
  { intros x y v Q. unfold eigenval in Q. apply NB in Q. destruct Q as (a & Q1 & Q2). apply EN in Q1.
    destruct (c_eigenval a); cbn in Q2; [|discriminate]. replace y with a by congruence. exact Q1. }
  assert (EV : forall o o' v, eigenvec eigh o = Ok (o', v) -> o_theta o' = o_theta o /\ o_phi o' = o_phi o).
  { intros x y v Q. unfold eigenvec in Q. apply NB in Q. destruct Q as (a & Q1 & Q2). apply EN in Q1.
    destruct (c_eigenvec a); cbn in Q2; [|discriminate]. replace y with a by congruence. exact Q1. }
  assert (GM : forall o o' v, grad_M C density o = Ok (o', v) -> o_theta o' = o_theta o /\ o_phi o' = o_phi o).
  { intros x y v. unfold grad_M. destruct (c_grad_M x); [intros Q; replace y with x by congruence; auto|].
    destruct (o_direction x); cbn [need bind]; [|discriminate]. intros Q.
    assert (INJ : forall (a b : obj) (v w : ten3), Ok (a, v) = Ok (b, w) -> b = a) by congruence. apply INJ in Q. subst y. split; reflexivity. }
  assert (HE : forall o o' v, hessian_eigenval eigh pinv C density o = Ok (o', v) -> o_theta o' = o_theta o /\ o_phi o' = o_phi o).
  { intros x y v Q. unfold hessian_eigenval in Q. apply NB in Q. destruct Q as ([a w] & Q1 & Q). apply NB in Q. destruct Q as ([b z] & Q2 & Q).
    apply NB in Q. destruct Q as (M & _ & Q). apply NB in Q. destruct Q as ([c gg] & Q3 & Q).
    apply EV in Q1. apply EL in Q2. apply GM in Q3. replace y with c by congruence. destruct Q1, Q2, Q3. split; congruence. }
  assert (SG : forall o o', solve_group eigh C density o = Ok o' -> o_theta o' = o_theta o /\ o_phi o' = o_phi o).
  { intros x y Q. unfold solve_group in Q. apply NB in Q. destruct Q as ([a w] & Q1 & Q). apply NB in Q. destruct Q as ([b z] & Q2 & Q).
    apply NB in Q. destruct Q as ([c gg] & Q3 & Q). apply NB in Q. destruct Q as (dd & _ & Q).
    apply PV in Q1. apply EV in Q2. apply GM in Q3.
    assert (INJ : forall a b : obj, Ok a = Ok b -> b = a) by congruence. apply INJ in Q. subst y. cbn. destruct Q1, Q2, Q3. split; congruence. }
  assert (GV : forall o o' v, group_values eigh C density o = Ok (o', v) -> o_theta o' = o_theta o /\ o_phi o' = o_phi o).
  { intros x y v Q. unfold group_values in Q. apply NB in Q. destruct Q as (a & Q1 & Q2).
    assert (A1 : o_theta a = o_theta x /\ o_phi a = o_phi x).
    { destruct (c_group x); [replace a with x by congruence; auto|apply SG, Q1]. }
    destruct (c_group a); cbn in Q2; [|discriminate]. replace y with a by congruence. exact A1. }
  assert (EH : forall o o' v, enhancement eigh pinv inv C density o = Ok (o', v) -> o_theta o' = o_theta o /\ o_phi o' = o_phi o).
  { intros x y v Q. unfold enhancement in Q. apply NB in Q. destruct Q as ([a w] & Q1 & Q). apply NB in Q. destruct Q as ([b z] & Q2 & Q).
    apply NB in Q. destruct Q as ([c gg] & Q3 & Q). apply NB in Q. destruct Q as (dd & _ & Q).
    apply HE in Q1. apply PV in Q2. apply GV in Q3.
    assert (INJ : forall (a b : obj) (v w : vec), Ok (a, v) = Ok (b, w) -> b = a) by congruence. apply INJ in Q. subst y. cbn. destruct Q1, Q2, Q3. split; congruence. }
  destruct (solve_ok o d K0) as (o1 & E1 & K1 & _). rewrite E1. cbn [bind]. apply SV in E1.
  destruct (solve_group_ok o1 d K1) as (o2 & E2 & K2 & _). rewrite E2. cbn [bind]. apply SG in E2.
  destruct (phase_ok o2 d K2) as (o3 & E3 & K3). rewrite E3. cbn [bind]. apply PV in E3.
  destruct (eigenvec_ok o3 d K3) as (o4 & E4 & K4). rewrite E4. cbn [bind]. apply EV in E4.
  destruct (group_ok o4 d K4) as (o5 & E5 & K5). rewrite E5. cbn [bind]. apply GV in E5.
  destruct (enh_ok o5 d K5) as (o6 & E6 & K6). rewrite E6. cbn [bind]. apply EH in E6.
  assert (TH : o_theta o6 = Some t) by (destruct A0, E1, E2, E3, E4, E5, E6; congruence).
  assert (PHI : o_phi o6 = Some p) by (destruct A0, E1, E2, E3, E4, E5, E6; congruence).
  rewrite TH, PHI. cbn [need bind]. eexists. split; [reflexivity|]. cbn [app map].
  repeat (f_equal; try reflexivity). unfold degrees. field. apply PI_neq0.
Qed.
End Cache.
Arguments direction_after _ : clear implicits.

(** ** C55: the loop over the sphere *)
(** Row [t * nphi + p] holds node (t, p); the rows are exactly these. *)
Lemma visit_ok f (g : nat * nat -> R * R) l : forall c, (forall a, In a l -> f a = Ok (g a)) ->
  visit c l f = Ok (combine (seq c (List.length l)) (map g l)).
Proof.
  induction l as [|a r IH]; intros c Hf; [reflexivity|]. cbn [visit List.length seq map combine].
  rewrite (Hf a) by now left. cbn [bind]. rewrite IH by (intros; apply Hf; now right). reflexivity.
Qed.
Definition nodes (ntheta nphi : nat) : list (nat * nat) := flat_map (fun t => map (fun p => (t, p)) (seq 0 nphi)) (seq 0 ntheta).
Lemma nodes_length_from s ntheta nphi : List.length (flat_map (fun t => map (fun p => (t, p)) (seq 0 nphi)) (seq s ntheta)) = (ntheta * nphi)%nat.
Proof.
  revert s. induction ntheta as [|k IH]; intros s; [reflexivity|]. cbn [seq flat_map]. rewrite app_length, map_length, seq_length, IH. lia.
Qed.
Lemma nodes_nth_from s ntheta nphi t p : (t < ntheta)%nat -> (p < nphi)%nat ->
  nth_error (flat_map (fun t => map (fun p => (t, p)) (seq 0 nphi)) (seq s ntheta)) (t * nphi + p) = Some ((s + t)%nat, p).
Proof.
  revert s t. induction ntheta as [|k IH]; intros s t Ht Hp; [lia|]. cbn [seq flat_map]. destruct t as [|t].
  - rewrite nth_error_app1 by (rewrite map_length, seq_length; lia). cbn [Nat.mul Nat.add].
    rewrite (map_nth_error (fun p => (s, p)) p (seq 0 nphi) (d := p)).
    + now rewrite Nat.add_0_r.
    + rewrite (nth_error_nth' _ 0%nat) by (rewrite seq_length; lia). now rewrite seq_nth by lia.
  - rewrite nth_error_app2 by (rewrite map_length, seq_length; cbn; lia).
    rewrite map_length, seq_length. replace (Datatypes.S t * nphi + p - nphi)%nat with (t * nphi + p)%nat by (cbn; lia).
    rewrite IH by lia. f_equal. f_equal. lia.
Qed.
Definition angles (ntheta nphi t p : nat) : R * R := (PI / 2 * (INR t / (INR ntheta - 1)), 2 * PI * (INR p / (INR nphi - 1))).
Lemma node_ok ntheta nphi t p : (2 <= ntheta)%nat -> (2 <= nphi)%nat -> node ntheta nphi t p = Ok (angles ntheta nphi t p).
Proof.
  intros A B. unfold node. destruct (ntheta - 1 =? 0)%nat eqn:E1; [apply Nat.eqb_eq in E1; lia|].
  destruct (nphi - 1 =? 0)%nat eqn:E2; [apply Nat.eqb_eq in E2; lia|].
  unfold angles. rewrite !minus_INR by lia. cbn [INR].
  apply le_INR in A. apply le_INR in B. cbn [INR] in A, B. f_equal. f_equal; field; lra.
Qed.
Lemma nth_error_both {A B} (xs : list A) (ys : list B) k x y : nth_error xs k = Some x -> nth_error ys k = Some y ->
  nth_error (combine xs ys) k = Some (x, y).
Proof.
  revert k ys. induction xs as [|a xs IH]; intros [|k] [|b ys]; cbn; try discriminate; [congruence|]. apply IH.
Qed.
Theorem C55_rows ntheta nphi t p : (2 <= ntheta)%nat -> (2 <= nphi)%nat -> (t < ntheta)%nat -> (p < nphi)%nat ->
  exists rows, sphere ntheta nphi = Ok rows /\ List.length rows = (ntheta * nphi)%nat /\
    nth_error rows (t * nphi + p) = Some ((t * nphi + p)%nat, angles ntheta nphi t p).
Proof.
  intros A B Ht Hp. unfold sphere.
  rewrite (visit_ok _ (fun '(t, p) => angles ntheta nphi t p)).
  2:{ intros [x y] _. now apply node_ok. }
  eexists. split; [reflexivity|]. rewrite nodes_length_from. split.
  - rewrite combine_length, seq_length, map_length, nodes_length_from. lia.
  - pose proof (nodes_nth_from 0 ntheta nphi t p Ht Hp) as N. cbn [Nat.add] in N.
    set (l := flat_map _ _) in *. pose proof (nodes_length_from 0 ntheta nphi) as L. fold l in L.
    assert (BND : (t * nphi + p < ntheta * nphi)%nat).
    { rewrite <- L. apply nth_error_Some. rewrite N. discriminate. }
    assert (M : nth_error (map (fun '(t, p) => angles ntheta nphi t p) l) (t * nphi + p) = Some (angles ntheta nphi t p)).
    { erewrite map_nth_error; [|exact N]. reflexivity. }
    assert (Sq : nth_error (seq 0 (ntheta * nphi)) (t * nphi + p) = Some (t * nphi + p)%nat).
    { rewrite (nth_error_nth' _ 0%nat) by (rewrite seq_length; lia). now rewrite seq_nth by lia. }
    now apply nth_error_both.
Qed.
(** No other rows, both ends of both intervals reached, each node once. *)
Theorem C55_ends ntheta nphi : (2 <= ntheta)%nat -> (2 <= nphi)%nat ->
  angles ntheta nphi 0 0 = (0, 0) /\ angles ntheta nphi (ntheta - 1) (nphi - 1) = (PI / 2, 2 * PI) /\
  ((ntheta - 1) * nphi + (nphi - 1) + 1 = ntheta * nphi)%nat.
Proof.
  intros A B. unfold angles. rewrite !minus_INR by lia. cbn [INR].
  pose proof (le_INR _ _ A) as A'. pose proof (le_INR _ _ B) as B'. cbn [INR] in A', B'.
  split; [f_equal; field; lra|]. split; [f_equal; field; lra|]. nia.
Qed.
Theorem C55_distinct ntheta nphi t p t' p' : (2 <= ntheta)%nat -> (2 <= nphi)%nat ->
  angles ntheta nphi t p = angles ntheta nphi t' p' -> t = t' /\ p = p'.
Proof.
  intros A B E. unfold angles in E.
  pose proof (le_INR _ _ A) as A'. pose proof (le_INR _ _ B) as B'. cbn [INR] in A', B'.
  pose proof PI_RGT_0. assert (E1 := f_equal fst E). assert (E2 := f_equal snd E). cbn [fst snd] in E1, E2.
  split; apply INR_eq.
  - apply Rmult_eq_reg_l in E1; [|lra]. apply Rmult_eq_reg_r in E1; [exact E1|]. apply Rinv_neq_0_compat. lra.
  - apply Rmult_eq_reg_l in E2; [|lra]. apply Rmult_eq_reg_r in E2; [exact E2|]. apply Rinv_neq_0_compat. lra.
Qed.
(** A single division in either angle. *)
Theorem C55_single_refuted n : (0 < n)%nat ->
  sphere 1 n = Raises "ZeroDivisionError" /\ sphere n 1 = Raises "ZeroDivisionError".
Proof.
  intros H. destruct n as [|n]; [lia|]. split.
  - unfold sphere. cbn [seq flat_map map app]. reflexivity.
  - unfold sphere. cbn [seq flat_map map app visit]. unfold node.
    destruct (Datatypes.S n - 1 =? 0)%nat; [reflexivity|]. reflexivity.
Qed.
Theorem C55_empty n : sphere 0 n = Ok [] /\ sphere n 0 = Ok [].
Proof.
  split; [reflexivity|]. unfold sphere. replace (flat_map _ (seq 0 n)) with (@nil (nat * nat)); [reflexivity|].
  induction (seq 0 n) as [|a r IH]; [reflexivity|]. cbn. exact IH.
Qed.
Example C55_instance : exists rows, sphere 3 5 = Ok rows /\ List.length rows = 15%nat /\ nth_error rows 7 = Some (7%nat, (PI / 2 * (1 / 2), 2 * PI * (1 / 2))).
Proof.
  destruct (C55_rows 3 5 1 2) as (rows & A & B & D); try lia. exists rows. split; [exact A|]. split; [exact B|].
  cbn [Nat.mul Nat.add] in D. rewrite D. unfold angles. cbn [INR]. f_equal. f_equal. f_equal; field.
Qed.

(** ** C52 *)
(** arctan2 is the polar angle. *)
Lemma sqrt_sum_pos x y : x <> 0 -> 0 < sqrt (x * x + y * y).
Proof. intros H. apply sqrt_lt_R0. nra. Qed.
Lemma atan_polar x y : 0 < x -> let r := sqrt (x * x + y * y) in r * cos (atan (y / x)) = x /\ r * sin (atan (y / x)) = y.
Proof.
  intros P r. assert (RP : 0 < r) by (apply sqrt_sum_pos; lra).
  assert (RR : r * r = x * x + y * y) by (apply sqrt_sqrt; nra).
  assert (Q : sqrt (1 + (y / x)²) = r / x).
  { apply sqrt_lem_1; [unfold Rsqr; nra|left; apply Rdiv_lt_0_compat; lra|]. unfold Rsqr.
    transitivity (r * r / (x * x)); [field; lra|]. rewrite RR. field. lra. }
  rewrite cos_atan, sin_atan, Q. split; field; lra.
Qed.
Lemma arctan2_polar y x : let r := sqrt (x * x + y * y) in
  r * cos (arctan2 y x) = x /\ r * sin (arctan2 y x) = y.
Proof.
  intros r. unfold arctan2. destruct (Rlt_dec 0 x) as [P|NP]; [now apply atan_polar|].
  destruct (Rlt_dec x 0) as [N|NN].
  - assert (A := atan_polar (- x) (- y) ltac:(lra)). cbn zeta in A.
    replace (- y / - x) with (y / x) in A by (field; lra).
    replace (- x * - x + - y * - y) with (x * x + y * y) in A by ring. fold r in A.
    destruct (Rle_dec 0 y).
    + rewrite neg_cos, neg_sin. lra.
    + replace (atan (y / x) - PI) with (- (- atan (y / x) + PI)) by ring. rewrite cos_neg, sin_neg, neg_cos, neg_sin, cos_neg, sin_neg. lra.
  - assert (x = 0) by lra. subst x. destruct (Rlt_dec 0 y) as [Y|NY].
    + assert (r = y) by (unfold r; replace (0 * 0 + y * y) with (y * y) by ring; apply sqrt_square; lra).
      rewrite cos_PI2, sin_PI2, H. split; ring.
    + destruct (Rlt_dec y 0) as [Y2|NY2].
      * assert (r = - y) by (unfold r; replace (0 * 0 + y * y) with ((- y) * (- y)) by ring; apply sqrt_square; lra).
        rewrite cos_neg, sin_neg, cos_PI2, sin_PI2, H. split; ring.
      * assert (y = 0) by lra. subst y. assert (r = 0) by (unfold r; replace (0 * 0 + 0 * 0) with 0 by ring; apply sqrt_0).
        rewrite cos_0, sin_0, H. split; ring.
Qed.
Definition swap (d : vec) : vec := fun i => match i with 0%nat => d 1%nat | 1%nat => d 0%nat | 2%nat => d 2%nat | _ => 0 end.
(** Angles computed as the code does describe the direction with x and y exchanged. *)
Lemma angles_swapped d : dot d d = 1 -> forall i, (i < 3)%nat ->
  vector (arctan2 (sqrt (d 1%nat ^ 2 + d 0%nat ^ 2)) (d 2%nat)) (arctan2 (d 0%nat) (d 1%nat)) i = swap d i.
Proof.
  intros U. set (s := sqrt (d 1%nat ^ 2 + d 0%nat ^ 2)).
  pose proof (arctan2_polar (d 0%nat) (d 1%nat)) as [A B].
  pose proof (arctan2_polar s (d 2%nat)) as [D E].
  assert (SS : s * s = d 1%nat ^ 2 + d 0%nat ^ 2) by (apply sqrt_sqrt; nra).
  replace (d 1%nat * d 1%nat + d 0%nat * d 0%nat) with (d 1%nat ^ 2 + d 0%nat ^ 2) in A, B by ring. fold s in A, B.
  replace (d 2%nat * d 2%nat + s * s) with 1 in D, E by (rewrite SS; unfold dot in U; lra).
  rewrite sqrt_1 in D, E. rewrite !Rmult_1_l in D, E.
  intros i Hi. unfold vector, swap. rewrite E, D. cases3; cbn [vec3]; assumption || reflexivity.
Qed.
Lemma unit_unit v : dot v v <> 0 -> dot (unit v) (unit v) = 1.
Proof.
  intros H. assert (P : 0 < dot v v) by (unfold dot in *; nra).
  assert (N : 0 < norm v) by (unfold norm; apply sqrt_lt_R0; exact P).
  pose proof (norm_sq v) as Q. unfold unit. transitivity (dot v v / (norm v * norm v)); [unfold dot; field; lra|].
  rewrite Q. field. lra.
Qed.
(** The matrix is that of the requested direction... *)
Theorem C52_matrix C density v i k : dot v v <> 0 ->
  o_M (cartesian_direction C density v) = Some (christoffel (Cmat C density) (unit v)) /\
  christoffel (Cmat C density) (unit v) i k = christoffel (Cmat C density) v i k / dot v v.
Proof.
  intros H. split; [reflexivity|]. assert (P : 0 < dot v v) by (unfold dot in *; nra).
  assert (N : 0 < norm v) by (unfold norm; apply sqrt_lt_R0; exact P).
  rewrite <- (norm_sq v). unfold christoffel, sum3, unit. field. lra.
Qed.
(** ... but the recorded angles belong to its mirror image in the plane x = y. *)
Theorem C52_recorded_angles C density v : dot v v <> 0 ->
  exists t p, o_theta (cartesian_direction C density v) = Some t /\ o_phi (cartesian_direction C density v) = Some p /\
    forall i, (i < 3)%nat -> vector t p i = swap (unit v) i.
Proof.
  intros H. do 2 eexists. split; [reflexivity|]. split; [reflexivity|]. apply angles_swapped, unit_unit, H.
Qed.
(** Setting the direction from the recorded angles gives the same direction
    exactly when x = y. *)
Theorem C52_round_trip_iff C density v t p : dot v v <> 0 ->
  o_theta (cartesian_direction C density v) = Some t -> o_phi (cartesian_direction C density v) = Some p ->
  ((forall i, (i < 3)%nat -> vector t p i = unit v i) <-> v 0%nat = v 1%nat).
Proof.
  intros H A B. destruct (C52_recorded_angles C density v H) as (t' & p' & A' & B' & V).
  rewrite A in A'. rewrite B in B'. replace t' with t in V by congruence. replace p' with p in V by congruence.
  assert (P : 0 < dot v v) by (unfold dot in *; nra).
  assert (N : 0 < norm v) by (unfold norm; apply sqrt_lt_R0; exact P).
  split.
  - intros E. specialize (E 0%nat ltac:(lia)). rewrite V in E by lia. unfold swap, unit in E.
    apply Rmult_eq_reg_r in E; [now symmetry|]. apply Rinv_neq_0_compat. lra.
  - intros E i Hi. rewrite V by exact Hi. unfold swap, unit. cases3; [now rewrite E|now rewrite E|reflexivity].
Qed.
Theorem C52_equivalent_refuted C density : exists v t p, dot v v <> 0 /\
  o_theta (cartesian_direction C density v) = Some t /\ o_phi (cartesian_direction C density v) = Some p /\
  o_direction (spherical_direction C density t p) <> o_direction (cartesian_direction C density v).
Proof.
  exists ex. destruct (C52_recorded_angles C density ex) as (t & p & A & B & V); [rewrite ex_unit; lra|].
  exists t, p. split; [rewrite ex_unit; lra|]. split; [exact A|]. split; [exact B|].
  intros E. assert (Q : vector t p 0%nat = unit ex 0%nat) by (cbn [o_direction spherical_direction cartesian_direction point] in E; congruence).
  rewrite V in Q by lia. unfold swap, unit, ex in Q. unfold norm, sum3 in Q.
  replace (1 * 1 + 0 * 0 + 0 * 0) with 1 in Q by ring. rewrite sqrt_1 in Q. lra.
Qed.
(** The same exchange in the angles of the group velocity. *)
Theorem C52_group_angles d pvel ev gm i : norm (g_vel (group d pvel ev gm) i) <> 0 ->
  forall j, (j < 3)%nat -> vector (g_theta (group d pvel ev gm) i) (g_phi (group d pvel ev gm) i) j = swap (g_dir (group d pvel ev gm) i) j.
Proof.
  intros H. apply angles_swapped.
  set (g := group d pvel ev gm) in *. pose proof (norm_sq (g_vel g i)) as Q.
  transitivity (dot (g_vel g i) (g_vel g i) / (norm (g_vel g i) * norm (g_vel g i))); [|rewrite Q; field; rewrite <- Q; nra].
  unfold dot. change (g_dir g i) with (fun j => g_vel g i j / norm (g_vel g i)). cbn beta. field. exact H.
Qed.
Example C52_instance : dot ex ex <> 0 /\ forall C density, o_phi (cartesian_direction C density ex) = Some (PI / 2).
Proof.
  split; [rewrite ex_unit; lra|]. intros C density. cbn [o_phi cartesian_direction point]. f_equal.
  assert (N : norm ex = 1).
  { unfold norm, sum3, ex. replace (1 * 1 + 0 * 0 + 0 * 0) with 1 by ring. apply sqrt_1. }
  unfold unit. rewrite N. unfold ex. replace (1 / 1) with 1 by field. replace (0 / 1) with 0 by field.
  unfold arctan2. destruct (Rlt_dec 0 0); [lra|]. destruct (Rlt_dec 0 1); [reflexivity|lra].
Qed.
Example C52_group_instance : norm (g_vel (group ex (phase (fun _ => 1)) (fun _ => ey) (gradient (Cmat C31 1000) ex)) 0%nat) <> 0.
Proof.
  pose proof (C50_group_faster (Cmat C31 1000) ex (fun _ => 1) (fun _ => ey) 0%nat) as G.
  destruct C50_instance as (A & B & D). specialize (G A B D). cbn [g_abs group] in G. cbn [g_vel group]. lra.
Qed.

Print Assumptions C51_never_stale.
Print Assumptions C51_no_direction.
Print Assumptions C51_history_irrelevant.
Print Assumptions C55_row.
Print Assumptions C55_rows.
Print Assumptions C55_ends.
Print Assumptions C55_distinct.
Print Assumptions C55_single_refuted.
Print Assumptions C55_empty.
Print Assumptions C52_matrix.
Print Assumptions C52_recorded_angles.
Print Assumptions C52_round_trip_iff.
Print Assumptions C52_equivalent_refuted.
Print Assumptions C52_group_angles.
