(** Vocabulary of C91. *)
From Coq Require Import String List Reals Bool.
From Flocq Require Import Core.
From Verif Require Import Py UnitsModel UnitsSpec GridFloatModel GridFloatProofs HoFloatModel HoFloatSpec UnitsFloatModel.
Open Scope R_scope.

(** Constants between 2^-80 and 2^80 (about 1e-24 and 1e24; Avogadro's number,
    the energy units in joule, the length units in metre, the speed of light all
    are; the length units between 2^-40 and 2^40), with cubes as accurate as pow
    makes them: two units of roundoff. *)
Definition usual (x : R) : Prop := b2 (-80) <= x <= b2 80.
Record plausible (C : fconstants) : Prop := {
  p_N : usual (N_A (kc C)); p_eV : usual (eV_J (kc C)); p_Ha : usual (Ha_J (kc C)); p_Ry : usual (Ry_J (kc C));
  p_A : b2 (-40) <= Angstrom_m (kc C) <= b2 40; p_B : b2 (-40) <= Bohr_m (kc C) <= b2 40; p_c : usual (c_ms (kc C));
  p_cA : near (cube_A C) (Angstrom_m (kc C) ^ 3) 2; p_cB : near (cube_B C) (Bohr_m (kc C) ^ 3) 2 }.
(** A value to convert: zero, or between 2^-150 and 2^150 (about 1e-45 and 1e45)
    in absolute value. *)
Definition moderate (v : R) : Prop := v = 0 \/ b2 (-150) <= Rabs v <= b2 150.

(** A converter between the units of a table, in doubles: what it accepts is what
    the table names; the SI value of what it returns differs from the SI value of
    what it was given by at most k units of roundoff, relatively. *)
Definition float_converter := fp -> string -> string -> option fp.
Definition accepts_names (t : unit_table) (conv : float_converter) : Prop :=
  forall r a b, conv r a b = None <-> meaning t (lower a) = None \/ meaning t (lower b) = None.
Definition faithful (t : unit_table) (k : R) (conv : float_converter) : Prop :=
  forall v a b da db, meaning t (lower a) = Some da -> meaning t (lower b) = Some db -> moderate v ->
  exists x, conv (Fin v) a b = Some (Fin x) /\ near (si db x) (si da v) k.
(** There and back. *)
Definition comes_back (k : R) (conv : float_converter) : Prop :=
  forall v a b r, moderate v -> conv (Fin v) a b = Some r ->
  exists y, conv r b a = Some (Fin y) /\ near y v k.

(** The order of doubles; NaN is comparable with nothing. *)
Definition fle (a b : fp) : Prop :=
  match a, b with
  | Nan, _ | _, Nan => False
  | Inf true, _ | _, Inf false => True
  | Fin x, Fin y => x <= y
  | _, _ => False
  end.
(** A function of doubles which keeps the order (weakly), commutes with a change of
    sign, hands NaN on. *)
Definition monotone (f : fp -> option fp) : Prop :=
  forall a b x y, fle a b -> f a = Some x -> f b = Some y -> fle x y.
Definition odd (f : fp -> option fp) : Prop := forall a, f (fneg a) = option_map fneg (f a).
Definition keeps_nan (f : fp -> option fp) : Prop := forall x, f Nan = Some x -> x = Nan.
