(** Model of quantas/utils/chemistry/__init__.py:11-39 and symbols.py:13-17. *)
From Coq Require Import String List ZArith Bool Lia.
Import ListNotations.
Open Scope string_scope.
Open Scope list_scope.

(** __init__.py:11-35 *)
Definition chemical_symbols : list string :=
  [ "X";
    "H"; "He";
    "Li"; "Be"; "B"; "C"; "N"; "O"; "F"; "Ne";
    "Na"; "Mg"; "Al"; "Si"; "P"; "S"; "Cl"; "Ar";
    "K"; "Ca"; "Sc"; "Ti"; "V"; "Cr"; "Mn"; "Fe"; "Co"; "Ni"; "Cu"; "Zn";
    "Ga"; "Ge"; "As"; "Se"; "Br"; "Kr";
    "Rb"; "Sr"; "Y"; "Zr"; "Nb"; "Mo"; "Tc"; "Ru"; "Rh"; "Pd"; "Ag"; "Cd";
    "In"; "Sn"; "Sb"; "Te"; "I"; "Xe";
    "Cs"; "Ba"; "La"; "Ce"; "Pr"; "Nd"; "Pm"; "Sm"; "Eu"; "Gd"; "Tb"; "Dy";
    "Ho"; "Er"; "Tm"; "Yb"; "Lu";
    "Hf"; "Ta"; "W"; "Re"; "Os"; "Ir"; "Pt"; "Au"; "Hg"; "Tl"; "Pb"; "Bi";
    "Po"; "At"; "Rn";
    "Fr"; "Ra"; "Ac"; "Th"; "Pa"; "U"; "Np"; "Pu"; "Am"; "Cm"; "Bk";
    "Cf"; "Es"; "Fm"; "Md"; "No"; "Lr";
    "Rf"; "Db"; "Sg"; "Bh"; "Hs"; "Mt"; "Ds"; "Rg"; "Cn"; "Nh"; "Fl"; "Mc";
    "Lv"; "Ts"; "Og" ].

(** A Python dict as a lookup function; [d[k] = v] overrides. *)
Definition dict := string -> option Z.
Definition dict_set (d : dict) (k : string) (v : Z) : dict :=
  fun k' => if String.eqb k' k then Some v else d k'.

(** __init__.py:37-39: the enumerate loop *)
Fixpoint fill (d : dict) (z : Z) (l : list string) : dict :=
  match l with
  | [] => d
  | s :: r => fill (dict_set d s z) (z + 1)%Z r
  end.
Definition atomic_numbers : dict := fill (fun _ => None) 0 chemical_symbols.

(** Python list indexing with negative indices; [None] = IndexError *)
Definition py_index {A} (l : list A) (i : Z) : option A :=
  if (0 <=? i)%Z then nth_error l (Z.to_nat i)
  else if (- Z.of_nat (length l) <=? i)%Z then nth_error l (Z.to_nat (i + Z.of_nat (length l)))
  else None.

(** symbols.py:13-17; [None] = IndexError / KeyError *)
Definition number2symbol (z : Z) : option string := py_index chemical_symbols z.
Definition symbol2number (s : string) : option Z := atomic_numbers s.
