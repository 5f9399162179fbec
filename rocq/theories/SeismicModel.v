(** Model of quantas/seismic/utils/seismic_obj.py and of SeismicCalculator.run
    (seismic.py:181-257). Exact reals; a division by zero, which numpy turns
    into nan or inf, is left to Coq's total division and excluded by the
    theorems. numpy.linalg.eigh, pinv and inv are parameters. *)
From Coq Require Import Reals List Arith ZArith String.
From Verif Require Import SymmetryModel TensorModel QhaRunModel.
Import ListNotations.
Open Scope string_scope.
Open Scope list_scope.
Open Scope R_scope.

Definition mat3 := nat -> nat -> R.
Definition ten3 := nat -> nat -> nat -> R.

(** np.arctan2(y, x) without the distinction of signed zeros *)
Definition arctan2 (y x : R) : R :=
  if Rlt_dec 0 x then atan (y / x)
  else if Rlt_dec x 0 then (if Rle_dec 0 y then atan (y / x) + PI else atan (y / x) - PI)
  else if Rlt_dec 0 y then PI / 2
  else if Rlt_dec y 0 then - (PI / 2)
  else 0.
(** np.around(x, 10): to the nearest multiple of 10^-10, ties to even *)
Definition rint (x : R) : Z :=
  let k := Int_part x in
  let f := x - IZR k in
  if Rlt_dec f (1 / 2) then k else if Rlt_dec (1 / 2) f then (k + 1)%Z else if Z.even k then k else (k + 1)%Z.
Definition around10 (x : R) : R := IZR (rint (x * 10 ^ 10)) / 10 ^ 10.
Definition norm (v : vec) : R := sqrt (sum3 (fun i => v i * v i)).
(** np.sign *)
Definition sign (x : R) : R := if Rlt_dec 0 x then 1 else if Rlt_dec x 0 then -1 else 0.
Definition det (A : mat3) : R :=
  A 0%nat 0%nat * (A 1%nat 1%nat * A 2%nat 2%nat - A 1%nat 2%nat * A 2%nat 1%nat)
  - A 0%nat 1%nat * (A 1%nat 0%nat * A 2%nat 2%nat - A 1%nat 2%nat * A 2%nat 0%nat)
  + A 0%nat 2%nat * (A 1%nat 0%nat * A 2%nat 1%nat - A 1%nat 1%nat * A 2%nat 0%nat).

Section Linear_algebra.
(** eigh(A): eigenvalues, and eigenvectors in columns *)
Variable eigh : mat3 -> (nat -> R) * mat3.
(** pinv(A, rcond=1e-10) *)
Variable pinv : mat3 -> mat3.
Variable inv : mat3 -> mat3.

(** seismic_obj.py:45-85 *)
Definition cofactor (A : mat3) : mat3 :=
  if Req_EM_T (det A) 0 then
    fun i j => match i, j with
    | 0%nat, 0%nat => A 1%nat 1%nat * A 2%nat 2%nat - A 1%nat 2%nat * A 2%nat 1%nat
    | 0%nat, 1%nat => A 1%nat 2%nat * A 2%nat 0%nat - A 1%nat 0%nat * A 2%nat 2%nat
    | 0%nat, _ => A 1%nat 0%nat * A 2%nat 1%nat - A 1%nat 1%nat * A 2%nat 0%nat
    | 1%nat, 0%nat => A 0%nat 2%nat * A 2%nat 1%nat - A 0%nat 1%nat * A 2%nat 2%nat
    | 1%nat, 1%nat => A 0%nat 0%nat * A 2%nat 2%nat - A 0%nat 2%nat * A 2%nat 0%nat
    | 1%nat, _ => A 0%nat 1%nat * A 2%nat 0%nat - A 0%nat 0%nat * A 2%nat 1%nat
    | _, 0%nat => A 0%nat 1%nat * A 1%nat 2%nat - A 0%nat 2%nat * A 1%nat 1%nat
    | _, 1%nat => A 0%nat 2%nat * A 1%nat 0%nat - A 0%nat 0%nat * A 1%nat 2%nat
    | _, _ => A 0%nat 0%nat * A 1%nat 1%nat - A 0%nat 1%nat * A 1%nat 0%nat
    end
  else fun i j => inv A j i * det A.

(** ** What is computed from the tensor and the direction *)
(** seismic_obj.py:139-144. C_ijkl repeats soec_obj.py's. *)
Definition Cmat (C : mat6) (density : R) : tensor4 := fun i j k l => C_ijkl C i j k l * (1000 / density).
(** seismic_obj.py:342-368 *)
Definition hessian_christoffel_matrix (T : tensor4) : tensor4 := fun i j k l => T k i j l + T k j i l.
(** seismic_obj.py:413, 441: np.dot(d, np.dot(d, Cmat)); np.dot of a vector and
    an array sums over the last but one index of the array. *)
Definition christoffel (T : tensor4) (d : vec) : mat3 :=
  fun i l => sum3 (fun j => d j * sum3 (fun k => d k * T i j k l)).
(** seismic_obj.py:444-452 *)
Definition gradient (T : tensor4) (d : vec) : ten3 :=
  fun j i l => sum3 (fun k => d k * (T i j k l + T i k j l)).

(** seismic_obj.py:454-462. argsort of three numbers, ties in order. *)
Fixpoint insert_by (w : nat -> R) (x : nat) (l : list nat) : list nat :=
  match l with
  | [] => [x]
  | y :: r => if Rlt_dec (w x) (w y) then x :: l else y :: insert_by w x r
  end.
Definition argsort (w : nat -> R) : list nat := fold_left (fun l x => insert_by w x l) [0; 1; 2]%nat [].
Definition sorted_eigen (M : mat3) : (nat -> R) * (nat -> vec) :=
  let '(w, v) := eigh M in
  (fun i => w (nth i (argsort w) 0%nat), fun i k => v k (nth i (argsort w) 0%nat)).
(** seismic_obj.py:480-488 *)
Definition phase (lam : nat -> R) : nat -> R := fun i => sign (lam i) * sqrt (Rabs (lam i)).
(** seismic_obj.py:502-522 *)
Definition hessian_eigen (H : tensor4) (M : mat3) (gm : ten3) (lam : nat -> R) (ev : nat -> vec) : ten3 :=
  fun n a b =>
    let u := ev n in
    let P := pinv (fun i k => lam n * (if (i =? k)%nat then 1 else 0) - M i k) in
    let dvec a i := sum3 (fun l => gm a i l * u l) in
    sum3 (fun k => sum3 (fun l => H a b k l * u l) * u k)
    + 2 * sum3 (fun m => sum3 (fun i => dvec a i * P i m) * dvec b m).
(** seismic_obj.py:524-570 *)
Record group_data := {
  g_eig : mat3; g_vel : mat3; g_abs : vec; g_dir : mat3; g_theta : vec; g_phi : vec; g_power : vec }.
Definition group (d : vec) (pvel : nat -> R) (ev : nat -> vec) (gm : ten3) : group_data :=
  let geig i j := sum3 (fun k => ev i k * sum3 (fun l => gm j k l * ev i l)) in
  let gvel i j := geig i j / (2 * pvel i) in
  let gabs i := norm (gvel i) in
  let gdir i j := gvel i j / gabs i in
  {| g_eig := geig; g_vel := gvel; g_abs := gabs; g_dir := gdir;
     g_phi := (fun i => arctan2 (gdir i 0%nat) (gdir i 1%nat));
     g_theta := (fun i => arctan2 (sqrt (gdir i 1%nat ^ 2 + gdir i 0%nat ^ 2)) (gdir i 2%nat));
     g_power := (fun i => acos (around10 (sum3 (fun j => gdir i j * d j)))) |}.
(** seismic_obj.py:635-659 *)
Definition direction_gradient (hess : ten3) (pvel gabs : vec) (gvel : mat3) (i : nat) : mat3 :=
  fun a b => (hess i a b / gabs i - gvel i a * sum3 (fun c => hess i b c * gvel i c) / gabs i ^ 3) / (2 * pvel i).
Definition enhancement_of (d : vec) (hess : ten3) (pvel gabs : vec) (gvel : mat3) : vec :=
  fun i => 1 / norm (fun a => sum3 (fun b => cofactor (direction_gradient hess pvel gabs gvel i) a b * d b)).

(** ** Averages: seismic_obj.py:223-316 *)
Definition bulk_modulus (C S : mat6) (density : R) : R :=
  (einsum_iijj (fun i j k l => Cmat C density i j k l * density / 1000) / 9 + 1 / einsum_iijj (S_ijkl S)) / 2.
Definition shear_average (C S : mat6) : R := 1 / 2 * (GV C + GR S).
Definition isotropic_velocity (C S : mat6) (density : R) : nat -> R :=
  let K := bulk_modulus C S density in
  let G := shear_average C S in
  let VP := sqrt (1000 * (K + 4 * G / 3) / density) in
  let VS := sqrt (1000 * G / density) in
  fun i => match i with 0%nat | 1%nat => VS | _ => VP end.

(** ** The object and its caches (seismic_obj.py:105-121) *)
Record obj := {
  o_direction : option vec; o_theta : option R; o_phi : option R; o_M : option mat3;
  c_grad_M : option ten3; c_eigenval : option (nat -> R); c_eigenvec : option (nat -> vec);
  c_group : option group_data (* the seven attributes solve_group stores together *);
  c_enhancement : option vec }.

Section Object.
Variables (C S : mat6) (density : R).
Let T := Cmat C density.
Let H := hessian_christoffel_matrix T.
Let iso := isotropic_velocity C S density.

(** seismic_obj.py:370-389 *)
Definition clear : obj :=
  {| o_direction := None; o_theta := None; o_phi := None; o_M := None; c_grad_M := None; c_eigenval := None;
     c_eigenvec := None; c_group := None; c_enhancement := None |}.
Definition new : obj := clear.
Definition point (d : vec) (theta phi : R) : obj :=
  {| o_direction := Some d; o_theta := Some theta; o_phi := Some phi; o_M := Some (christoffel T d);
     c_grad_M := None; c_eigenval := None; c_eigenvec := None; c_group := None; c_enhancement := None |}.
(** seismic_obj.py:391-414 *)
Definition spherical_direction (theta phi : R) : obj := point (vector theta phi) theta phi.
(** seismic_obj.py:416-442 *)
Definition unit (v : vec) : vec := fun i => v i / norm v.
Definition cartesian_direction (v : vec) : obj :=
  let d := unit v in
  point d (arctan2 (sqrt (d 1%nat ^ 2 + d 0%nat ^ 2)) (d 2%nat)) (arctan2 (d 0%nat) (d 1%nat)).

(** A method returns the updated object and a value, or raises. *)
Definition method (A : Type) := obj -> outcome (obj * A).
Definition with_grad o g := {| o_direction := o_direction o; o_theta := o_theta o; o_phi := o_phi o; o_M := o_M o;
  c_grad_M := Some g; c_eigenval := c_eigenval o; c_eigenvec := c_eigenvec o; c_group := c_group o; c_enhancement := c_enhancement o |}.
Definition with_eigen o l v := {| o_direction := o_direction o; o_theta := o_theta o; o_phi := o_phi o; o_M := o_M o;
  c_grad_M := c_grad_M o; c_eigenval := Some l; c_eigenvec := Some v; c_group := c_group o; c_enhancement := c_enhancement o |}.
Definition with_group o g := {| o_direction := o_direction o; o_theta := o_theta o; o_phi := o_phi o; o_M := o_M o;
  c_grad_M := c_grad_M o; c_eigenval := c_eigenval o; c_eigenvec := c_eigenvec o; c_group := Some g; c_enhancement := c_enhancement o |}.
Definition with_enhancement o e := {| o_direction := o_direction o; o_theta := o_theta o; o_phi := o_phi o; o_M := o_M o;
  c_grad_M := c_grad_M o; c_eigenval := c_eigenval o; c_eigenvec := c_eigenvec o; c_group := c_group o; c_enhancement := Some e |}.
(** reading an attribute that is still None and using it in arithmetic *)
Definition need {A} (x : option A) : outcome A := match x with Some a => Ok a | None => Raises "TypeError" end.

(** seismic_obj.py:444-452 *)
Definition grad_M : method ten3 := fun o =>
  match c_grad_M o with
  | Some g => Ok (o, g)
  | None => let? d := need (o_direction o) in let g := gradient T d in Ok (with_grad o g, g)
  end.
(** seismic_obj.py:454-462; eigh(None) raises LinAlgError *)
Definition solve (o : obj) : outcome obj :=
  match o_M o with
  | None => Raises "LinAlgError"
  | Some M => let '(l, v) := sorted_eigen M in Ok (with_eigen o l v)
  end.
Definition ensure_eigen (o : obj) : outcome obj :=
  match c_eigenval o with None => solve o | Some _ => Ok o end.
(** seismic_obj.py:464-500 *)
Definition eigenval : method (nat -> R) := fun o =>
  let? o := ensure_eigen o in let? l := need (c_eigenval o) in Ok (o, l).
Definition eigenvec : method (nat -> vec) := fun o =>
  let? o := ensure_eigen o in let? v := need (c_eigenvec o) in Ok (o, v).
Definition phase_velocity : method vec := fun o =>
  let? o := ensure_eigen o in let? l := need (c_eigenval o) in Ok (o, phase l).
Definition rel_phase_velocity : method vec := fun o =>
  let? o := ensure_eigen o in
  bind (phase_velocity o) (fun '(o, p) => Ok (o, fun i => p i / iso i)).
(** seismic_obj.py:502-522 *)
Definition hessian_eigenval : method ten3 := fun o =>
  bind (eigenvec o) (fun '(o, v) =>
  bind (eigenval o) (fun '(o, l) =>
  let? M := need (o_M o) in
  bind (grad_M o) (fun '(o, g) =>
  Ok (o, hessian_eigen H M g l v)))).
(** seismic_obj.py:524-570 *)
Definition solve_group (o : obj) : outcome obj :=
  bind (phase_velocity o) (fun '(o, p) =>
  bind (eigenvec o) (fun '(o, v) =>
  bind (grad_M o) (fun '(o, g) =>
  let? d := need (o_direction o) in
  Ok (with_group o (group d p v g))))).
(** seismic_obj.py:572-633: the seven properties and the relative velocity; all
    the caches they test are stored together by solve_group *)
Definition group_values : method group_data := fun o =>
  let? o := (match c_group o with None => solve_group o | Some _ => Ok o end) in
  let? g := need (c_group o) in Ok (o, g).
(** seismic_obj.py:635-659 *)
Definition enhancement : method vec := fun o =>
  bind (hessian_eigenval o) (fun '(o, h) =>
  bind (phase_velocity o) (fun '(o, p) =>
  bind (group_values o) (fun '(o, g) =>
  let? d := need (o_direction o) in
  let e := enhancement_of d h p (g_abs g) (g_vel g) in
  Ok (with_enhancement o e, e)))).

(** ** Histories *)
Inductive query := QGrad | QEigenval | QEigenvec | QPhase | QRelPhase | QHessian | QGroup (pick : group_data -> mat3) | QEnhancement.
Inductive value := Vec (v : vec) | Vecs (v : nat -> vec) | Mat (m : mat3) | Ten (t : ten3).
Inductive op := Spherical (theta phi : R) | Cartesian (v : vec) | Clear | Solve | SolveGroup | Ask (q : query).
Definition lift {A} (f : A -> value) (m : method A) (o : obj) : outcome (obj * value) :=
  bind (m o) (fun '(o, a) => Ok (o, f a)).
Definition ask (q : query) : obj -> outcome (obj * value) :=
  match q with
  | QGrad => lift Ten grad_M
  | QEigenval => lift Vec eigenval
  | QEigenvec => lift Vecs eigenvec
  | QPhase => lift Vec phase_velocity
  | QRelPhase => lift Vec rel_phase_velocity
  | QHessian => lift Ten hessian_eigenval
  | QGroup pick => lift (fun g => Mat (pick g)) group_values
  | QEnhancement => lift Vec enhancement
  end.
(** An exception leaves the object as it was: the methods that can raise do so
    before storing anything. *)
Definition step (o : obj) (a : op) : obj :=
  match a with
  | Spherical t p => spherical_direction t p
  | Cartesian v => cartesian_direction v
  | Clear => clear
  | Solve => match solve o with Ok o' => o' | Raises _ => o end
  | SolveGroup => match solve_group o with Ok o' => o' | Raises _ => o end
  | Ask q => match ask q o with Ok (o', _) => o' | Raises _ => o end
  end.
Definition history (l : list op) : obj := fold_left step l new.

(** ** SeismicCalculator.run (seismic.py:181-257) *)
Definition degrees (x : R) : R := x * (180 / PI).
(** seismic.py:215-240: what one point of the sphere stores for mode [i]. *)
Definition row (o : obj) (i : nat) : outcome (list R) :=
  let? o := solve o in
  let? o := solve_group o in
  bind (phase_velocity o) (fun '(o, p) =>
  bind (eigenvec o) (fun '(o, u) =>
  bind (group_values o) (fun '(o, g) =>
  bind (enhancement o) (fun '(o, e) =>
  let? t := need (o_theta o) in
  let? f := need (o_phi o) in
  Ok ([t; f; p i; 100 * (p i / iso i - 1)] ++ map (u i) [0; 1; 2]%nat ++
      [g_abs g i; 100 * (g_abs g i / iso i - 1)] ++ map (g_vel g i) [0; 1; 2]%nat ++
      [degrees (g_power g i); e i]))))).
End Object.
End Linear_algebra.

(** seismic.py:201-209, 242-245: the nodes in the order the loops visit them,
    the row being counted by the pointer [c]. *)
Definition node (ntheta nphi theta phi : nat) : outcome (R * R) :=
  if (ntheta - 1 =? 0)%nat then Raises "ZeroDivisionError"
  else if (nphi - 1 =? 0)%nat then Raises "ZeroDivisionError"
  else Ok (1 / 2 * PI * INR theta / INR (ntheta - 1), 2 * PI * INR phi / INR (nphi - 1)).
Fixpoint visit (c : nat) (l : list (nat * nat)) (f : nat * nat -> outcome (R * R)) : outcome (list (nat * (R * R))) :=
  match l with
  | [] => Ok []
  | a :: r => bind (f a) (fun x => bind (visit (S c) r f) (fun rest => Ok ((c, x) :: rest)))
  end.
Definition sphere (ntheta nphi : nat) : outcome (list (nat * (R * R))) :=
  visit 0 (flat_map (fun t => map (fun p => (t, p)) (seq 0 nphi)) (seq 0 ntheta)) (fun '(t, p) => node ntheta nphi t p).
