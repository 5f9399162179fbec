(** The printed report of the elastic calculator.
    - /repo/quantas/soec/soec.py:42-53 (formats), 191-214 (report_input_data),
      216-299 (run), 301-381 (calculate_polar_properties), 383-406
      (report_initial_results), 455-530 (report_variation_...)
    One string per printed line. The time, the shortest text of the density
    (str of a float) and the progress bars are parameters; debug messages are
    off; numbers are exact reals until they are printed. Eigenvalues (sorted),
    the phase velocities and scipy's search are parameters. *)
From Coq Require Import Reals String Ascii List Bool Arith.
From Verif Require Import Py DecimalModel FormatModel FormatProofs TableModel SymmetryModel TensorModel SoecRunModel ReportModel.
Import ListNotations.
Open Scope string_scope.
Open Scope list_scope.
Open Scope nat_scope.

(** soec.py:42-53 *)
Definition tl : string := "    " +++ rule 10 +++ "---" +++ rule 32 +++ "---" +++ rule 32.
Definition ml : string := "    " +++ rule 10 +++ "-|-" +++ rule 32 +++ "-|-" +++ rule 32.
Definition dh (l a b : string) : string := "    " +++ pad_right 10 l +++ " | " +++ center 32 a +++ " | " +++ center 32 b.
Definition dv (l : string) (a b : shown) : string := "    " +++ pad_right 10 l +++ " | " +++ centred 32 4 a +++ " | " +++ centred 32 4 b.
Definition qh (l a b c d : string) : string :=
  "    " +++ pad_right 10 l +++ " | " +++ center 15 a +++ "  " +++ center 15 b +++ " | " +++ center 15 c +++ "  " +++ center 15 d.
Definition qv (l : string) (a b c d : shown) : string :=
  "    " +++ pad_right 10 l +++ " | " +++ centred 15 4 a +++ "  " +++ centred 15 4 b +++ " | " +++ centred 15 4 c +++ "  " +++ centred 15 4 d.
Definition ttl : string := "    " +++ rule 10 +++ "---" +++ rule 22 +++ "---" +++ rule 22 +++ "---" +++ rule 22.
Definition tml : string := "    " +++ rule 10 +++ "-|-" +++ rule 22 +++ "-|-" +++ rule 22 +++ "-|-" +++ rule 22.
Definition th (l a b c : string) : string := "    " +++ pad_right 10 l +++ " | " +++ center 22 a +++ " | " +++ center 22 b +++ " | " +++ center 22 c.
Definition tv (l : string) (a b c : shown) : string :=
  "    " +++ pad_right 10 l +++ " | " +++ centred 22 4 a +++ " | " +++ centred 22 4 b +++ " | " +++ centred 22 4 c.
Definition hh (l a b c d e f : string) : string :=
  "    " +++ pad_right 10 l +++ " | " +++ center 10 a +++ "  " +++ center 10 b +++ " | " +++ center 10 c +++ "  " +++ center 10 d
  +++ " | " +++ center 10 e +++ "  " +++ center 10 f.
Definition hv (l : string) (a b c d e f : shown) : string :=
  "    " +++ pad_right 10 l +++ " | " +++ centred 10 4 a +++ "  " +++ centred 10 4 b +++ " | " +++ centred 10 4 c +++ "  " +++ centred 10 4 d
  +++ " | " +++ centred 10 4 e +++ "  " +++ centred 10 4 f.

(** 203-213: six fields, each followed by four blanks *)
Definition six (field : R -> string) (row : nat -> R) : string := "  " +++ concat_map (fun j => field (row j) +++ "    ") (seq 0 6).
(** 191-214 *)
Definition report_input (job system : string) (density : R) (density_text : string) (C S : mat6) : list string :=
  ["" ; "Elastic analysis of " +++ job; ""; "System is " +++ system;
   (if Req_EM_T density 0 then "Density: not provided" else "Density: " +++ density_text +++ " kg m^-3"); "";
   "Stiffness matrix (values in GPa)"] ++
  map (fun i => six (fun x => right 10 4 (Fin x)) (C i)) (seq 0 6) ++
  [""; "Compliance tensor (values in TPa^-1)"] ++
  map (fun i => six (fun x => right_plain 9 6 (Fin x)) (fun j => (S i j * 1000)%R)) (seq 0 6) ++ [""].

(** soec_obj.py:329-339 and soec.py:226-229 *)
Definition average_velocities (C S : mat6) (density : R) : shown * shown :=
  if Rlt_dec 0 density
  then (square_root (1000 * GH C S / density), square_root (1000 * (KH C S + 4 * GH C S / 3) / density))
  else (Nan, Nan).
(** 383-406; awv[0] != np.nan is always true *)
Definition sh (l a b c d : string) : string :=
  pad_right 5 l +++ "  " +++ center 10 a +++ "  " +++ center 10 b +++ "  " +++ center 10 c +++ "  " +++ center 10 d.
Definition sv (l : string) (row : list R) : string := pad_right 5 l +++ concat_map (fun x => "  " +++ centred 10 5 (Fin x)) row.
Definition report_initial (C S : mat6) (density : R) (eigv : list R) : list string :=
  ["Average properties"; sh "" "Bulk" "Young's" "Shear" "Poisson's"; sh "" "modulus" "modulus" "modulus" "ratio"; sh "" "(GPa)" "(GPa)" "(GPa)" ""] ++
  map (fun lr => sv (fst lr) (snd lr)) (combine ["Voigt"; "Reuss"; "Hill"] (averages C S)) ++
  [""; "Average (VRH) wave velocities";
   "  - Transversal  (Vs): " +++ right 10 5 (fst (average_velocities C S density)) +++ " km/s";
   "  - Longitudinal (Vp): " +++ right 10 5 (snd (average_velocities C S density)) +++ " km/s"; "";
   "Eigenvalues of the stiffness matrix:"] ++
  map (fun i => "    lambda_" +++ print_nat (N.of_nat (i + 1)) +++ ": " +++ centred 7 5 (Fin (nth i eigv 0%R))) (seq 0 6) ++ [""].

Definition shown_ratio (r : ratio) : shown := match r with Finite x => Fin x | Infinite => Inf end.
Definition first_axis (pick : variation -> vec) (v : variation) (i : nat) : shown := Fin (pick v i).
Definition second_axis (pick : variation -> option vec) (v : variation) (i : nat) : shown := match pick v with Some a => Fin (a i) | None => Nan end.
(** 455-475 *)
Definition report_single (E LC : variation) : list string :=
  ["Variations of the elastic moduli:"; ""; tl; dh "" "Young's modulus" "Linear compressibility"; ml; qh "" "E_min" "E_max" "beta_min" "beta_max";
   qv "Values" (Fin (v_min E)) (Fin (v_max E)) (Fin (v_min LC)) (Fin (v_max LC)); ml; dv "Anisotropy" (shown_ratio (v_anisotropy E)) (shown_ratio (v_anisotropy LC)); ml] ++
  map (fun i => qv (nth i [""; "Axis"; ""] "") (first_axis min_axis1 E i) (first_axis max_axis1 E i) (first_axis min_axis1 LC i) (first_axis max_axis1 LC i)) (seq 0 3) ++
  [tl; "Notes: E min/max values in GPa, beta min/max values in TPa^-1"; ""].
(** 477-502 *)
Definition report_dual (G Nu : variation) : list string :=
  [tl; dh "" "Shear modulus" "Poisson's ratio"; ml; qh "" "G_min" "G_max" "nu_min" "nu_max";
   qv "Values" (Fin (v_min G)) (Fin (v_max G)) (Fin (v_min Nu)) (Fin (v_max Nu)); ml; dv "Anisotropy" (shown_ratio (v_anisotropy G)) (shown_ratio (v_anisotropy Nu)); ml] ++
  map (fun i => qv (nth i [""; "1st Axis"; ""] "") (first_axis min_axis1 G i) (first_axis max_axis1 G i) (first_axis min_axis1 Nu i) (first_axis max_axis1 Nu i)) (seq 0 3) ++
  [ml] ++
  map (fun i => qv (nth i [""; "2nd Axis"; ""] "") (second_axis min_axis2 G i) (second_axis max_axis2 G i) (second_axis min_axis2 Nu i) (second_axis max_axis2 Nu i)) (seq 0 3) ++
  [tl; "Notes: G min/max values in GPa"; ""].
(** 504-530 *)
Definition report_seismic (Vp Vs1 Vs2 : variation) : list string :=
  [""; "Variations of the seismic velocities:"; ""; ttl; th "" "V_s1" "V_s2" "V_p"; tml; hh "" "min" "max" "min" "max" "min" "max";
   hv "Values" (Fin (v_min Vs1)) (Fin (v_max Vs1)) (Fin (v_min Vs2)) (Fin (v_max Vs2)) (Fin (v_min Vp)) (Fin (v_max Vp)); tml;
   tv "Anisotropy" (shown_ratio (v_anisotropy Vs1)) (shown_ratio (v_anisotropy Vs2)) (shown_ratio (v_anisotropy Vp)); tml] ++
  map (fun i => hv (nth i [""; "Axis"; ""] "") (first_axis min_axis1 Vs1 i) (first_axis max_axis1 Vs1 i) (first_axis min_axis1 Vs2 i) (first_axis max_axis1 Vs2 i)
    (first_axis min_axis1 Vp i) (first_axis max_axis1 Vp i)) (seq 0 3) ++
  [ttl; "Notes: min/max values in km s^-1"; ""].

Section Run.
Variable brute : (angles -> R) -> nat -> angles * R.
(** SOEC.phase_velocity: three velocities in ascending order *)
Variable velocities : angles -> list R.
(** Lines of calculate_polar_properties, with progress bars; 'Calculation time' *)
Variables (polar_lines : list string) (time_line : string).
(** soec_obj.py:402-424 *)
Definition longitudinal_wave (x : angles) : R := nth 2 (velocities x) 0%R.
Definition shear_wave_1 (x : angles) : R := nth 0 (velocities x) 0%R.
Definition shear_wave_2 (x : angles) : R := nth 1 (velocities x) 0%R.
Definition vary := directional_variation brute.
(** 276-297 *)
Definition report_plots (s : settings) (density : R) : list string :=
  if polar s && plotting s && matplotlib s
  then [""; "Plotting results as requested:"] ++
       map (fun p => " - figure " +++ basename s +++ "_" +++ p +++ ".png generated") (if Rlt_dec 0 density then ["E"; "LC"; "G"; "Nu"; "waves"] else ["E"; "LC"; "G"; "Nu"])
  else if plotting s && negb (matplotlib s) then [""; "Plotting requested, but Matplotlib not found"] else [].
(** 216-299 *)
Definition report_run (s : settings) (density : R) (C S : mat6) (eigv : list R) : list string :=
  report_initial C S density eigv ++
  if gate eigv then
    ["SOEC matrix is not definite positive, crystal is mechanically unstable"; "No further analysis will be performed."]
  else
    report_single (vary (young_f S) 2) (vary (compressibility_f S) 2) ++
    report_dual (vary (shear_f S) 3) (vary (poisson_f S) 3) ++
    (if Rlt_dec 0 density then report_seismic (vary longitudinal_wave 2) (vary shear_wave_1 2) (vary shear_wave_2 2) else []) ++
    (if polar s then polar_lines else []) ++
    [""; time_line] ++ report_plots s density.
End Run.
