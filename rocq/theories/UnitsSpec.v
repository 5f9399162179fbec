(** Independent specification of units: each accepted name denotes an affine
    map to the SI value, [SI = scale * x + offset]. *)
From Coq Require Import String List Reals.
From Verif Require Import Py UnitsModel.
Import ListNotations.
Open Scope string_scope.
Open Scope R_scope.

Definition unit_table := list (string * (R * R)).

Fixpoint meaning (t : unit_table) (name : string) : option (R * R) :=
  match t with
  | [] => None
  | (n, d) :: r => if String.eqb name n then Some d else meaning r name
  end.

Definition si (d : R * R) (x : R) : R := fst d * x + snd d.

(** kelvin *)
Definition temperature_units : unit_table :=
  [ ("k", (1, 0)); ("kelvin", (1, 0));
    ("c", (1, 27315/100)); ("celsius", (1, 27315/100)); ("°c", (1, 27315/100));
    ("f", (5/9, 27315/100 - 32*5/9)); ("fahrenheit", (5/9, 27315/100 - 32*5/9));
    ("r", (5/9, 0)); ("rankine", (5/9, 0)) ].

(** joule (per particle) *)
Definition energy_units (K : constants) : unit_table :=
  [ ("ha", (Ha_J K, 0)); ("ev", (eV_J K, 0)); ("electron volt", (eV_J K, 0));
    ("ry", (Ry_J K, 0)); ("kj/mol", (1000 / N_A K, 0)); ("kjmol", (1000 / N_A K, 0)) ].

(** pascal *)
Definition pressure_units : unit_table :=
  [ ("pa", (1, 0)); ("kpa", (10^3, 0)); ("mpa", (10^6, 0)); ("gpa", (10^9, 0));
    ("bar", (10^5, 0)); ("kbar", (10^8, 0)); ("mbar", (10^11, 0)); ("gbar", (10^14, 0)) ].

(** hertz *)
Definition frequency_units (K : constants) : unit_table :=
  [ ("hz", (1, 0)); ("thz", (10^12, 0)); ("cm^-1", (100 * c_ms K, 0)) ].

(** metre *)
Definition length_units (K : constants) : unit_table :=
  [ ("m", (1, 0)); ("metre", (1, 0)); ("a", (Angstrom_m K, 0));
    ("angstrom", (Angstrom_m K, 0)); ("bohr", (Bohr_m K, 0)) ].

(** cubic metre *)
Definition volume_units (K : constants) : unit_table :=
  [ ("m", (1, 0)); ("metre", (1, 0)); ("a", ((Angstrom_m K)^3, 0));
    ("angstrom", ((Angstrom_m K)^3, 0)); ("bohr", ((Bohr_m K)^3, 0)) ].

(** units of energy_to_pressure / pressure_to_energy *)
Definition ep_energy_units (K : constants) : unit_table :=
  [ ("hartree", (Ha_J K, 0)); ("ha", (Ha_J K, 0)); ("electron volt", (eV_J K, 0));
    ("ev", (eV_J K, 0)); ("rydberg", (Ry_J K, 0)); ("ry", (Ry_J K, 0)) ].
Definition ep_volume_units (K : constants) : unit_table :=
  [ ("angstrom", ((Angstrom_m K)^3, 0)); ("a", ((Angstrom_m K)^3, 0));
    ("a^3", ((Angstrom_m K)^3, 0)); ("bohr", ((Bohr_m K)^3, 0)); ("bohr^3", ((Bohr_m K)^3, 0)) ].

Definition positive_constants (K : constants) : Prop :=
  0 < N_A K /\ 0 < eV_J K /\ 0 < Ha_J K /\ 0 < Ry_J K /\
  0 < Angstrom_m K /\ 0 < Bohr_m K /\ 0 < c_ms K.

(** What a conversion between units of table [t] must do: defined exactly on
    names of the table (after lower-casing) and preserving the SI value. *)
Definition converts (t : unit_table) (conv : R -> string -> string -> option R) : Prop :=
  forall x u v,
    match meaning t (lower u), meaning t (lower v) with
    | Some du, Some dv => exists y, conv x u v = Some y /\ si dv y = si du x
    | _, _ => conv x u v = None
    end.

(** All scales of a table are positive. *)
Definition positive_table (t : unit_table) : Prop :=
  forall n d, meaning t n = Some d -> 0 < fst d.
