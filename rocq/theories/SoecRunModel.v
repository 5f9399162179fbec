(** Model of quantas/soec/soec.py: the elastic calculator (extrema, polar cuts,
    control flow of the run). scipy.optimize (brute, minimize) and
    numpy.linalg.eig are parameters; printed text is abstracted to one event
    per printed section. *)
From Coq Require Import Reals List Arith String Bool.
From Verif Require Import StatMechModel SymmetryModel TensorModel.
Import ListNotations.
Open Scope R_scope.

Definition angles := list R.
Definition ang (x : angles) (i : nat) : R := nth i x 0.
(** soec_obj.py:21-48, called as vector( *x ) *)
Definition vector_of (x : angles) : vec :=
  match x with [t; p; c] => vector_chi t p c | _ => vector (ang x 0) (ang x 1) end.

(** The methods of SOEC as functions of the list of angles. *)
Definition young_f S (x : angles) := young_modulus S (ang x 0) (ang x 1).
Definition compressibility_f S (x : angles) := linear_compressibility S (ang x 0) (ang x 1).
Definition shear_f S (x : angles) := shear_modulus S (ang x 0) (ang x 1) (ang x 2).
Definition poisson_f S (x : angles) := poisson_ratio S (ang x 0) (ang x 1) (ang x 2).

Section Variation.
(** optimize.brute(func, ((0, pi),)*dim, Ns, finish=fmin)[0:2] *)
Variable brute : (angles -> R) -> nat -> angles * R.

(** soec.py:55-68 (only the default method is used) *)
Definition minimize (f : angles -> R) (dim : nat) : angles * R := brute f dim.
(** soec.py:71-73 *)
Definition maximize (f : angles -> R) (dim : nat) : angles * R :=
  let res := minimize (fun x => - f x) dim in (fst res, - snd res).

Inductive ratio := Finite (r : R) | Infinite.
Record variation := { v_min : R; v_max : R; v_anisotropy : ratio;
                      min_axis1 : vec; max_axis1 : vec; min_axis2 : option vec; max_axis2 : option vec }.
(** soec.py:408-433 *)
Definition directional_variation (f : angles -> R) (dim : nat) : variation :=
  let mn := minimize f dim in
  let mx := maximize f dim in
  {| v_min := snd mn; v_max := snd mx;
     v_anisotropy := if Rlt_dec 0 (snd mn) then Finite (snd mx / snd mn) else Infinite;
     min_axis1 := vector_of (fst mn); max_axis1 := vector_of (fst mx);
     min_axis2 := if (dim =? 2)%nat then None else Some (vector_of (fst mn));
     max_axis2 := if (dim =? 2)%nat then None else Some (vector_of (fst mx)) |}.
End Variation.

(** ** Control flow *)
Inductive event :=
| AverageProperties | AverageVelocities (available : bool) | Eigenvalues
| NotPositiveDefinite | ModuliVariation | ShearPoissonVariation | VelocityVariation
| PolarProperties (waves : bool) | Time | Figure (name : string) | NoMatplotlib.
Record settings := { polar : bool; plotting : bool; matplotlib : bool; basename : string }.

(** soec.py:248: any(eigv) <= 0 (any is a bool, compared as 0 or 1) *)
Definition nonzero (x : R) : bool := negb (Req_b x 0).
Definition gate (eigv : list R) : bool := negb (existsb nonzero eigv).
(** soec.py:383-406: the test awv[0] != np.nan is true of every float *)
Definition initial_report (density : R) : list event :=
  [AverageProperties; AverageVelocities (if Rlt_dec 0 density then true else false); Eigenvalues].
(** soec.py:276-296 *)
Definition plots (s : settings) (density : R) : list event :=
  if (polar s && plotting s && matplotlib s)%bool
  then List.map (fun p => Figure (basename s ++ "_" ++ p ++ ".png")%string)
         (["E"; "LC"; "G"; "Nu"]%string ++ (if Rlt_dec 0 density then ["waves"%string] else []))%list
  else if (plotting s && negb (matplotlib s))%bool then [NoMatplotlib] else [].
(** soec.py:216-299: printed sections and the final value of completed *)
Definition run (s : settings) (density : R) (eigv : list R) : list event * bool :=
  if gate eigv then (initial_report density ++ [NotPositiveDefinite], false)%list
  else (initial_report density ++ [ModuliVariation; ShearPoissonVariation]
        ++ (if Rlt_dec 0 density then [VelocityVariation] else [])
        ++ (if polar s then [PolarProperties (if Rlt_dec 0 density then true else false)] else [])
        ++ [Time] ++ plots s density, true)%list.

(** ** Polar cuts *)
(** np.linspace(0, 2*np.pi, n)[i] *)
Definition linspace_2pi (n i : nat) : R := 2 * PI * INR i / INR (n - 1).
(** np.degrees *)
Definition degrees (x : R) : R := x * 180 / PI.
Inductive plane := XY | XZ | YZ.
(** soec.py:314, 331, 348 and the argument order of 316-357 *)
Definition cut_angles (pl : plane) (n i : nat) : R * R :=
  match pl with
  | XY => (PI / 2, linspace_2pi n i)
  | XZ => (linspace_2pi n i, 0)
  | YZ => (linspace_2pi n i, PI / 2)
  end.
Section Polar.
(** optimize.minimize(func, pi/2, method='Powell').fun *)
Variable powell : (R -> R) -> R.
(** soec_obj.py:341-348 *)
Definition shear_2d S (a : R * R) : R * R :=
  (powell (fun z => shear_modulus S (fst a) (snd a) z), - powell (fun z => - shear_modulus S (fst a) (snd a) z)).
(** soec_obj.py:350-357 *)
Definition poisson_2d S (a : R * R) : R * R * R :=
  let r1 := powell (fun z => poisson_ratio S (fst a) (snd a) z) in
  let r2 := powell (fun z => - poisson_ratio S (fst a) (snd a) z) in
  (Rmin 0 r1, Rmax 0 r1, - r2).
(** soec.py:365-379 with soec_obj.py:426-466: row i of each table *)
Definition row_E S pl n i : list R := [degrees (linspace_2pi n i); young_modulus S (fst (cut_angles pl n i)) (snd (cut_angles pl n i))].
Definition row_LC S pl n i : list R :=
  let v := linear_compressibility S (fst (cut_angles pl n i)) (snd (cut_angles pl n i)) in
  [degrees (linspace_2pi n i); Rmax 0 v; Rmax 0 (- v)].
Definition row_G S pl n i : list R := let g := shear_2d S (cut_angles pl n i) in [degrees (linspace_2pi n i); fst g; snd g].
Definition row_Nu S pl n i : list R :=
  let g := poisson_2d S (cut_angles pl n i) in [degrees (linspace_2pi n i); fst (fst g); snd (fst g); snd g].
(** soec.py:301: nrad = 360 *)
Definition nrad : nat := 360.
Definition table (row : nat -> list R) : list (list R) := List.map row (seq 0 nrad).
End Polar.
