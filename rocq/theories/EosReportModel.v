(** The printed reports of the equation of state calculator.
    - /repo/quantas/eosfit/eosfit.py:91-135 (report_input_data), 206-280 (report_fit)
    - /repo/quantas/eosfit/utils/interactive.py:48-57 (names and labels), 266-286 (get_label)
    - /repo/quantas/eosfit/utils/pv_eos.py:168, 246, 453, 660, 852 (__repr__)
    One string per printed line. Numbers are exact reals, inf or nan until they are
    printed. What scipy's ODR returns is a parameter (the record [output]). *)
From Coq Require Import Reals String Ascii List Bool Arith ZArith.
From Verif Require Import Py DecimalModel FormatModel FormatProofs TableModel ReportModel EosReaderModel PvEosModel.
Import ListNotations.
Open Scope string_scope.
Open Scope list_scope.
Open Scope nat_scope.

(** ** The input (eosfit.py:91-135) *)
Definition measured (v : fl) : shown := match v with Num x => Fin x | NaN => Nan end.
(** lines 104-119; [None] is an IndexError *)
Definition field (column : option (list fl)) (i : nat) : option string :=
  match column with
  | None => Some (center 10 "--")
  | Some xs => option_map (fun v => centred 10 5 (measured v)) (nth_error xs i)
  end.
(** lines 103-120 *)
Definition data_line (d : data) (i : nat) (p : fl) : option string :=
  match field (cols d "v") i, field (cols d "a") i, field (cols d "b") i, field (cols d "c") i with
  | Some v, Some a, Some b, Some c => Some (centred 10 3 (measured p) +++ "  " +++ v +++ "  " +++ a +++ "  " +++ b +++ "  " +++ c)
  | _, _, _, _ => None
  end.
Fixpoint data_lines (d : data) (i : nat) (ps : list fl) : option (list string) :=
  match ps with
  | [] => Some []
  | p :: r => match data_line d i p, data_lines d (S i) r with Some l, Some ls => Some (l :: ls) | _, _ => None end
  end.
(** lines 123-132 *)
Definition weight_line (d : data) (key name : string) : list string :=
  match cols d key with Some _ => [" - Found weights for " +++ name] | None => [] end.
Definition weight_lines (d : data) : list string :=
  weight_line d "sigmap" "pressure" ++ weight_line d "sigmav" "volume" ++ weight_line d "sigmaa" "a-axis" ++
  weight_line d "sigmab" "b-axis" ++ weight_line d "sigmac" "c-axis".
(** lines 91-135; [None] is an AttributeError (no pressure) or an IndexError *)
Definition report_input_data (d : data) : option (list string) :=
  match cols d "p" with
  | None => None
  | Some ps =>
      match data_lines d 0 ps with
      | None => None
      | Some rows => Some (["" ; "Job: " +++ job d; "";
          center 10 "P (GPa)" +++ "  " +++ center 10 "V (A^3)" +++ "  " +++ center 10 "a (A)" +++ "  " +++ center 10 "b (A)" +++ "  " +++ center 10 "c (A)";
          rule 10 +++ "  " +++ rule 10 +++ "  " +++ rule 10 +++ "  " +++ rule 10 +++ "  " +++ rule 10] ++
          rows ++ [""] ++ weight_lines d ++ [""])
      end
  end.

(** ** A fit (eosfit.py:206-280) *)
(** What scipy.odr.ODR.run returns. *)
Record output := { beta : nat -> shown; sd_beta : nat -> shown; cov_beta : nat -> nat -> R; res_var : shown; stopreason : list string;
  delta : nat -> shown; y : nat -> shown; eps : nat -> shown }.

(** interactive.py:48-57, 266-286 *)
Definition data_name (key : string) : string := if String.eqb key "v" then "Volume" else key +++ "-axis".
Definition get_label (key : string) : list string :=
  if String.eqb key "v" then ["K0"; "K'"; "K''"; "V0"]
  else ["M0(" +++ key +++ ")"; "M'(" +++ key +++ ")"; "M''(" +++ key +++ ")"; key +++ "0"].
(** pv_eos.py, __repr__ of the classes behind the keys of the menu *)
Definition eos_name (key : string) : string :=
  if String.eqb key "1" then "Murnaghan" else if String.eqb key "2" then "Birch-Murnaghan" else if String.eqb key "3" then "Natural Strain"
  else if String.eqb key "4" then "Vinet" else "Tait".
(** eosfit.py:210-214; other orders raise a KeyError *)
Definition implieds (order : nat) : option (list nat) :=
  match order with 2 => Some [1; 2] | 3 => Some [2] | 4 => Some [] | _ => None end.
(** eosfit.py:216-219 *)
Definition value_label (name vunit : string) : string :=
  if String.eqb name "Volume" then name +++ " (" +++ vunit +++ "^3)" else name +++ " (" +++ vunit +++ ")".
(** eosfit.py:221-225, 278 *)
Definition edge : string := "#" +++ rule 78 +++ "#".
(** eosfit.py:243-250 *)
Definition parameter_line (r : output) (fix_ : list nat) (marks : list nat) (i : nat) (label : string) : string :=
  "  " +++ pad_right 6 label +++ " = " +++ right 10 5 (beta r i) +++ " +/- " +++ right 10 5 (sd_beta r i) +++
  (if nth i fix_ 1 =? 0 then " (FIXED)" else "") +++ (if existsb (Nat.eqb i) marks then " [IMPLIED]" else "").
Fixpoint enumerate {A B} (f : nat -> A -> B) (i : nat) (l : list A) : list B :=
  match l with [] => [] | a :: r => f i a :: enumerate f (S i) r end.
(** eosfit.py:254-256 *)
Definition covariance_line (m : nat -> R) : string :=
  "  " +++ right_e 12 5 (m 0) +++ " " +++ right_e 12 5 (m 1) +++ " " +++ right_e 12 5 (m 2) +++ " " +++ right_e 12 5 (m 3).
(** eosfit.py:268-275 *)
Definition calculated_line (r : output) (values pressure : nat -> shown) (i : nat) : string :=
  centred 15 5 (values i) +++ " " +++ center 15 (signed 5 (delta r i)) +++ " " +++ centred 15 5 (pressure i) +++ " " +++
  centred 15 5 (y r i) +++ " " +++ center 15 (signed 5 (eps r i)).
(** The first letter of a name: value_name[0] *)
Definition first_letter (s : string) : string := match s with String c _ => String c "" | EmptyString => "" end.
(** eosfit.py:206-280; the weights are given by whether they are arrays *)
Definition report_fit (vunit : string) (r : output) (n : nat) (values pressure : nat -> shown) (name eos : string) (order : nat)
    (weighted_p weighted_v : bool) (fix_ : list nat) (labels : list string) : option (list string) :=
  match implieds order with
  | None => None
  | Some marks => Some (
      [""; edge; "#" +++ center 78 ("EOS results for " +++ name +++ " fitting") +++ "#"; edge; "";
       pad_left 15 "EOS formulation" +++ ": " +++ eos; pad_left 15 "EOS order" +++ ": " +++ int_text (Z.of_nat order); "";
       (if weighted_p then "Results weighted for pressure" else "Results not weighted for pressure");
       (if weighted_v then "Results weighted for " +++ name else "Results not weighted for for " +++ name); "";
       "Fitting parameters:"] ++
      enumerate (parameter_line r fix_ marks) 0 labels ++
      [""; "Covariance matrix:"] ++ map (fun i => covariance_line (cov_beta r i)) (seq 0 (List.length labels)) ++
      [""; "Residual variance: " +++ right_plain 6 4 (res_var r); ""; "Exited ODR loop because:"] ++
      enumerate (fun i reason => "  " +++ int_text (Z.of_nat (i + 1)) +++ ". " +++ reason) 0 (stopreason r) ++
      [""; "Calculated data:"; "";
       center 15 (value_label name vunit) +++ " " +++ center 15 ("eps_" +++ first_letter name) +++ " " +++ center 15 "Pressure (GPa)" +++ " " +++
       center 15 "P_obs (GPa)" +++ " " +++ center 15 "eps_P";
       rule 15 +++ " " +++ rule 15 +++ " " +++ rule 15 +++ " " +++ rule 15 +++ " " +++ rule 15] ++
      map (calculated_line r values pressure) (seq 0 n) ++ [""; edge; ""])
  end.
