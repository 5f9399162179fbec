(** The polar figures of elastic constants.
    - /repo/quantas/soec/utils/plotting.py
    - /repo/quantas/soec/soec.py:86-92, 108-112, 276-297
    What is handed to matplotlib is modelled: angles, radii, the outer limit,
    texts, legends and file names; colours and dashes are part of the order of
    the curves and left out, and so is the drawing. Angle 0 is at the top
    (set_theta_zero_location "N") and angles grow counter-clockwise
    (matplotlib's default). *)
From Coq Require Import Reals String List Bool Arith.
From Verif Require Import Py DecimalModel FormatModel FormatProofs TableModel SymmetryModel TensorModel SoecRunModel SoecTableModel.
Import ListNotations.
Open Scope string_scope.
Open Scope list_scope.
Open Scope nat_scope.

(** One axis: description, curves as (angle, radius), set_rmax *)
Record cut := { text : string; curves : list (list (R * R)); rmax : R }.
Record figure := { cuts : list cut; legend : list string }.
(** np.radians *)
Definition radians (x : R) : R := (x * (PI / 180))%R.
(** array[:, k] *)
Definition col (k : nat) (t : list (list R)) : list R := map (fun r => nth k r 0%R) t.
(** np.max; of an empty array it raises, which does not happen (360 rows) *)
Definition maximum (l : list R) : R := match l with [] => 0%R | x :: l => fold_left Rmax l x end.
(** axis.plot(np.radians(array[:, 0]), array[:, k]) *)
Definition curve (t : list (list R)) (k : nat) : list (R * R) := combine (map radians (col 0 t)) (col k t).
(** The columns [ks] drawn and the column [top] of set_rmax *)
Definition polar_axis (title plane : string) (ks : list nat) (top : nat) (t : list (list R)) : cut :=
  {| text := title +++ " (" +++ plane +++ ")"; curves := map (curve t) ks; rmax := (1.1 * maximum (col top t))%R |}.
Definition polar_figure (title : string) (ks : list nat) (top : nat) (words : list string) (xy xz yz : list (list R)) : figure :=
  {| cuts := [polar_axis title "xy" ks top xy; polar_axis title "xz" ks top xz; polar_axis title "yz" ks top yz]; legend := words |}.
(** plotting.py:66-106 *)
Definition young_polar_plot := polar_figure "Young's modulus" [1] 1 [].
(** 109-153 *)
Definition compressibility_polar_plot := polar_figure "Linear compressibility" [1; 2] 1 ["Positive"; "Negative"].
(** 156-200 *)
Definition shear_polar_plot := polar_figure "Shear modulus" [1; 2] 2 ["Minimum"; "Maximum"].
(** 203-250 *)
Definition poisson_polar_plot := polar_figure "Poisson's ratio" [1; 2; 3] 3 ["Negative"; "Minimum"; "Maximum"].
(** 253-299 *)
Definition seismic_waves_polar_plot := polar_figure "Seismic waves" [1; 2; 3] 3 ["$v_{s1}$"; "$v_{s2}$"; "$v_{p}$"].
(** soec.py:86-92 *)
Definition plot_functions : list (string * (list (list R) -> list (list R) -> list (list R) -> figure)) :=
  [("E", young_polar_plot); ("LC", compressibility_polar_plot); ("G", shear_polar_plot); ("Nu", poisson_polar_plot);
   ("waves", seismic_waves_polar_plot)].
(** soec.py:276-297: figures saved, and an exception *)
Fixpoint saved (base : string) (tables : plane -> list (string * list (list R))) (props : list string) : list (string * figure) * option string :=
  match props with
  | [] => ([], None)
  | p :: props =>
      match find p plot_functions, find p (tables XY), find p (tables XZ), find p (tables YZ) with
      | Some f, Some xy, Some xz, Some yz =>
          let '(l, e) := saved base tables props in ((base +++ "_" +++ p +++ ".png", f xy xz yz) :: l, e)
      | _, _, _, _ => ([], Some "KeyError")
      end
  end.
Definition soec_figures (s : settings) (density : R) (tables : plane -> list (string * list (list R))) : list (string * figure) * option string :=
  if polar s && plotting s && matplotlib s
  then saved (basename s) tables (if Rlt_dec 0 density then ["E"; "LC"; "G"; "Nu"; "waves"] else ["E"; "LC"; "G"; "Nu"])
  else ([], None).
