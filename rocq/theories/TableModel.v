(** Export of (quasi-)harmonic results to text tables.
    - /repo/quantas/qha/utils/table.py, /repo/quantas/harmonic/utils/table.py
      (the two files differ in the table of types and in the unit line)
    - /repo/quantas/qha/utils/export.py, /repo/quantas/harmonic/utils/export.py
    - what is stored: /repo/quantas/qha/qha.py:1229-1298, /repo/quantas/harmonic/harmonic.py:296-336
    Numbers are exact reals; infinities and NaN are not modelled. *)
From Coq Require Import Reals String Ascii List Bool Arith ZArith.
From Verif Require Import Py DecimalModel FormatModel FormatProofs.
Import ListNotations.
Open Scope string_scope.
Open Scope list_scope.
Open Scope nat_scope.

(** '{s:{c}^{w}}' with a blank: the extra blank goes to the right *)
Definition center (w : nat) (s : string) : string :=
  let p := w - String.length s in spaces (p / 2) +++ s +++ spaces (p - p / 2).
Fixpoint fill (c : ascii) (n : nat) : string := match n with 0 => "" | S n => String c (fill c n) end.

(** table.py:16-32 *)
Definition t_space : nat := 10.
Definition d_space : nat := 20.
Definition file_header : string := "*- This file was created using Quantas -*".
Inductive style := Ttype | Etype | Vtype | Ptype.
(** '%.2f' '%.12E' '%.8f' '%.8f' *)
Definition number (st : style) (x : R) : string :=
  match st with Ttype => fix_text 2 x | Etype => sci_body 12 x | Vtype | Ptype => fix_text 8 x end.

(** table.py:38-41 (with no column the second width is -1: the header fails) *)
Definition calc_space (n : nat) : nat * nat := (n * d_space + t_space + (n + 1), n * d_space + (n - 1)).
(** 44-45: '{s:{c}<{w}}{s}' *)
Definition separator (totw : nat) (sym char : ascii) : string := String sym (fill char (totw - 1)) +++ String sym "".
(** 48-49 *)
Definition header (dataw : nat) (tag1 tag2 : string) : string :=
  " " +++ center t_space tag1 +++ " " +++ center dataw tag2 +++ " ".
(** 56-65 *)
Definition put_blank : string := " " +++ center t_space "".
Definition put_data (x : R) (st : style) : string :=
  " " +++ center (match st with Ttype => t_space | _ => d_space end) (number st x).
(** 68-69: '{s: >0}' of ' \n' *)
Definition newrow : string := " " +++ String newline "".

(** ndarrays of one or two dimensions *)
Inductive array := Vec (v : list R) | Mat (m : list (list R)).
Inductive outcome := Done | Raised (e : string).
(** z[i][j]; a scalar cannot be indexed *)
Definition entry (z : array) (i j : nat) : R + string :=
  match z with
  | Vec v => match nth_error v i with Some _ => inr "IndexError" | None => inr "IndexError" end
  | Mat m => match nth_error m i with
             | None => inr "IndexError"
             | Some row => match nth_error row j with None => inr "IndexError" | Some x => inl x end
             end
  end.

(** The 'types' table: description, label (before and after the unit), number
    format. *)
Record kind := { desc : string; label : string -> string; numstyle : style }.
Definition labelled (a b : string) : string -> string := fun u => a +++ u +++ b.
Definition mk (d a : string) (st : style) : kind := {| desc := d; label := labelled (a +++ " (") ")"; numstyle := st |}.
(** qha/utils/table.py:113-153 *)
Definition qha_types (name : string) : option kind :=
  if String.eqb name "T" then Some (mk "Temperature" "T" Ttype)
  else if String.eqb name "P" then Some (mk "Pressure" "P" Ptype)
  else if String.eqb name "Uzp" then Some (mk "Zero-point energy" "Ezp" Etype)
  else if String.eqb name "Uth" then Some (mk "Thermal energy" "Eth" Etype)
  else if String.eqb name "Utot" then Some (mk "Internal energy" "E" Etype)
  else if String.eqb name "S" then Some (mk "Entropy" "S" Etype)
  else if String.eqb name "Fvib" then Some (mk "Vibrational Helmholtz free energy" "Fvib" Etype)
  else if String.eqb name "F" then Some (mk "Helmholtz free energy" "F" Etype)
  else if String.eqb name "Cv" then Some (mk "Isochoric heat capacity" "Cv" Etype)
  else if String.eqb name "VT" then Some {| desc := "Unit cell volume"; label := labelled "V (" "^3)"; numstyle := Vtype |}
  else if String.eqb name "Cp" then Some (mk "Isobaric heat capacity" "Cp" Etype)
  else if String.eqb name "Cp-Cv" then Some (mk "Correction for isobaric heat capacity" "Cp-Cv" Etype)
  else if String.eqb name "KT" then Some (mk "Isothermal bulk modulus" "KT" Ptype)
  else if String.eqb name "KS" then Some (mk "Adiabatic bulk modulus" "KS" Ptype)
  else if String.eqb name "Kp" then Some {| desc := "First-derivative of bulk modulus"; label := labelled "K'" ""; numstyle := Ptype |}
  else if String.eqb name "alphaV" then Some (mk "Volumetric coefficient of thermal expansion" "alphaV" Etype)
  else if String.eqb name "H" then Some (mk "Enthalpy" "H" Etype)
  else if String.eqb name "G" then Some (mk "Gibbs free energy" "G" Etype)
  else if String.eqb name "gruneisen" then Some {| desc := "Gruneisen parameters"; label := fun _ => "gamma"; numstyle := Etype |}
  else None.
(** harmonic/utils/table.py:113-132 *)
Definition ha_types (name : string) : option kind :=
  if String.eqb name "T" then Some (mk "Temperature" "T" Ttype)
  else if String.eqb name "V" then Some {| desc := "Volume"; label := labelled "V (" "^3)"; numstyle := Vtype |}
  else if String.eqb name "U0" then Some (mk "Static energy" "E0" Etype)
  else if String.eqb name "Uzp" then Some (mk "Zero-point energy" "Ezp" Etype)
  else if String.eqb name "Uth" then Some (mk "Thermal energy" "Eth" Etype)
  else if String.eqb name "Utot" then Some (mk "Internal energy" "E" Etype)
  else if String.eqb name "S" then Some (mk "Entropy" "S" Etype)
  else if String.eqb name "Cv" then Some (mk "Isochoric heat capacity" "Cv" Etype)
  else if String.eqb name "Fvib" then Some (mk "Vibrational Helmholtz free energy" "Fvib" Etype)
  else if String.eqb name "F" then Some (mk "Helmholtz free energy" "F" Etype)
  else None.

(** Writing: the text written before the end or before the exception. *)
Definition written := (string * outcome)%type.
Definition put (s : string) (k : written) : written := (s +++ fst k, snd k).
Definition nl : string := String newline "".

(** The cells of row i from column j on. *)
Fixpoint cells (z : array) (st : style) (i : nat) (js : list nat) (k : written) : written :=
  match js with
  | [] => k
  | j :: js => match entry z i j with
               | inr e => ("", Raised e)
               | inl x => put (put_data x st) (cells z st i js k)
               end
  end.
Fixpoint rows (x : list R) (xst zst : style) (ny : nat) (z : array) (i : nat) (k : written) : written :=
  match x with
  | [] => k
  | t :: x => put (put_data t xst) (cells z zst i (seq 0 ny) (put newrow (rows x xst zst ny z (S i) k)))
  end.
Definition concat_map {A} (f : A -> string) (l : list A) : string := fold_right (fun a s => f a +++ s) "" l.
(** QHATableFile.write, qha 158-200, harmonic 137-176 ([adimensional]: the qha
    version has a special line for an empty unit). The file is opened, hence
    emptied, first. *)
Definition unit_line (adimensional : bool) (zunit : string) : string :=
  if (adimensional && String.eqb zunit "")%bool then "Adimensional data" else "Data in " +++ zunit +++ " units".
Definition write (types : string -> option kind) (adimensional : bool)
    (x : list R) (xname xunit : string) (y : list R) (yname yunit : string) (z : array) (zname zunit : string) : written :=
  let (totw, dataw) := calc_space (List.length y) in
  put (file_header +++ nl +++ nl)
  (match types zname, types xname, types yname with
   | None, _, _ => ("", Raised "KeyError")
   | Some kz, Some kx, Some ky =>
     put (desc kz +++ nl +++ unit_line adimensional zunit +++ nl +++ nl +++ separator totw "+" "-" +++ nl)
     (match y with
      | [] => ("", Raised "ValueError")
      | _ =>
        put (header dataw (label kx xunit) (label ky yunit) +++ nl)
        (put put_blank
        (put (concat_map (fun p => put_data p (numstyle ky)) y)
        (put newrow
        (put (separator totw "+" "=" +++ nl)
        (rows x (numstyle kx) (numstyle kz) (List.length y) z 0 (separator totw "+" "=", Done))))))
      end)
   | Some kz, _, _ =>
     (desc kz +++ nl +++ unit_line adimensional zunit +++ nl +++ nl +++ separator totw "+" "-" +++ nl, Raised "KeyError")
   end).

(** * The exporters *)
(** An HDF5 file: its 'info' attribute, its datasets with their 'unit'. *)
Record dataset := { values : array; unit_of : string }.
Record h5 := { info : option string; datasets : list (string * dataset) }.
Fixpoint find {A} (k : string) (l : list (string * A)) : option A :=
  match l with [] => None | (k', a) :: l => if String.eqb k k' then Some a else find k l end.

(** x, y and data are dictionaries of the class, shared by all exporters. *)
Record shared := { sx : option dataset; sy : option dataset; sdata : list (string * dataset) }.
Definition no_data : shared := {| sx := None; sy := None; sdata := [] |}.
Record exporter := { keys : list string; error : option string }.
Definition set_key {A} (k : string) (a : A) (l : list (string * A)) : list (string * A) := (k, a) :: l.
(** export.py:34-64 (yname: 'P' for qha, 'V' for harmonic). A 'unit' attribute is
    taken to exist. *)
Definition load (yname : string) (f : h5) (s : shared) : shared * exporter :=
  match info f with
  | None => (s, {| keys := []; error := Some "This does not appear to be a Quantas output file" |})
  | Some _ =>
    match find "T" (datasets f) with
    | None => (s, {| keys := []; error := Some "This does not appear to be a Quantas HA output file" |})
    | Some t =>
      match find yname (datasets f) with
      | None => ({| sx := Some t; sy := sy s; sdata := sdata s |}, {| keys := []; error := Some "This does not appear to be a Quantas HA output file" |})
      | Some p =>
        let other := filter (fun kd => negb (String.eqb (fst kd) "T" || String.eqb (fst kd) yname)) (datasets f) in
        ({| sx := Some t; sy := Some p; sdata := fold_left (fun l kd => set_key (fst kd) (snd kd) l) other (sdata s) |},
         {| keys := map fst other; error := None |})
      end
    end
  end.
(** export.py:66-97, one selection (the prompt offers the exporter's keys). *)
Definition axis (a : array) : list R := match a with Vec v => v | Mat _ => [] end.
Definition export (types : string -> option kind) (adimensional : bool) (yname : string) (s : shared) (selection : string) : written :=
  match sx s, sy s, find selection (sdata s) with
  | Some x, Some y, Some z =>
    write types adimensional (axis (values x)) "T" (unit_of x) (axis (values y)) yname (unit_of y) (values z) selection (unit_of z)
  | _, _, _ => ("", Raised "KeyError")
  end.
