(** quantas/utils/physics/units.py with the arithmetic of numpy's float64:
    every operation rounded to nearest-even, with gradual underflow, overflow to
    infinities, and NaN (the doubles [fp] of HoFloatModel). The scale names are
    those of UnitsModel; here only the arithmetic differs.
    Simplified: one element of a float64 array; the two zeros are one number;
    np.power(10., n) for 3 <= n <= 14 is the exact power; the cubes of the two
    lengths are two numbers of the record. *)
From Coq Require Import String List Reals Bool.
From Flocq Require Import Core.
From Verif Require Import Py StatMechModel UnitsModel GridFloatModel HoFloatModel.
Import ListNotations.
Open Scope string_scope.
Open Scope R_scope.

(** scipy's constants (units.py:20-48) with np.power(Angstrom, 3.) and
    np.power(Bohr, 3.) (units.py:327, 329, 432, 434, 598, 600, 607, 609) *)
Record fconstants := { kc : constants; cube_A : R; cube_B : R }.

(** numpy's a / b: a zero divisor gives an infinity or NaN, no exception. *)
Definition npdiv (a b : fp) : fp :=
  match fdiv a b with
  | Some r => r
  | None => match a with
            | Fin x => if Req_b x 0 then Nan else Inf (Rlt_b x 0)
            | Inf s => Inf s
            | Nan => Nan
            end
  end.
(** zero_Celsius = 273.15 (units.py:37): the nearest double *)
Definition zero_C : fp := Fin (rnd (27315 / 100)).

(** units.py:88-99 *)
Definition to_kelvin_f (v : fp) (s : string) : option fp :=
  if mem (lower s) ["celsius"; "°c"; "c"] then Some (fadd v zero_C)
  else if mem (lower s) ["kelvin"; "k"] then Some v
  else if mem (lower s) ["fahrenheit"; "f"] then Some (fadd (npdiv (fmul (fsub v (Fin 32)) (Fin 5)) (Fin 9)) zero_C)
  else if mem (lower s) ["rankine"; "r"] then Some (npdiv (fmul v (Fin 5)) (Fin 9))
  else None.
(** units.py:102-113 *)
Definition from_kelvin_f (t : fp) (s : string) : option fp :=
  if mem (lower s) ["celsius"; "°c"; "c"] then Some (fsub t zero_C)
  else if mem (lower s) ["kelvin"; "k"] then Some t
  else if mem (lower s) ["fahrenheit"; "f"] then Some (fadd (npdiv (fmul (fsub t zero_C) (Fin 9)) (Fin 5)) (Fin 32))
  else if mem (lower s) ["rankine"; "r"] then Some (npdiv (fmul t (Fin 9)) (Fin 5))
  else None.

(** Two stages: to the pivot scale, then to the new scale. *)
Definition through (a : option fp) (k : fp -> option fp) : option fp :=
  match a with None => None | Some t => k t end.
(** units.py:50-115 *)
Definition convert_temperature_f (v : fp) (old new : string) : option fp :=
  through (to_kelvin_f v old) (fun t => from_kelvin_f t new).

Section WithConstants.
Variable C : fconstants.
Let Ha := Fin (Ha_J (kc C)).
Let eV := Fin (eV_J (kc C)).
Let Ry := Fin (Ry_J (kc C)).
Let N := Fin (N_A (kc C)).
Let A := Fin (Angstrom_m (kc C)).
Let B := Fin (Bohr_m (kc C)).
Let c100 := fmul (Fin (c_ms (kc C))) (Fin 100).

(** units.py:152-163 *)
Definition to_hartree_f (v : fp) (s : string) : option fp :=
  if mem (lower s) ["Hartree"; "Ha"; "ha"] then Some v
  else if mem (lower s) ["electron volt"; "eV"; "ev"] then Some (fmul v (npdiv eV Ha))
  else if mem (lower s) ["Rydberg"; "Ry"; "ry"] then Some (fmul v (npdiv Ry Ha))
  else if mem (lower s) ["kJ/mol"; "kj/mol"; "kjmol"] then Some (fmul v (npdiv (npdiv (Fin 1000) Ha) N))
  else None.
(** units.py:165-176 *)
Definition from_hartree_f (e : fp) (s : string) : option fp :=
  if mem (lower s) ["Hartree"; "Ha"; "ha"] then Some e
  else if mem (lower s) ["electron volt"; "eV"; "ev"] then Some (fmul e (npdiv Ha eV))
  else if mem (lower s) ["Rydberg"; "Ry"; "ry"] then Some (fmul e (npdiv Ha Ry))
  else if mem (lower s) ["kJ/mol"; "kj/mol"; "kjmol"] then Some (fmul e (npdiv (fmul Ha N) (Fin 1000)))
  else None.
(** units.py:117-177 *)
Definition convert_energy_f (v : fp) (old new : string) : option fp :=
  through (to_hartree_f v old) (fun e => from_hartree_f e new).

(** units.py:220-237 *)
Definition to_pascal_f (v : fp) (s : string) : option fp :=
  if mem (lower s) ["gpa"] then Some (fmul v (Fin giga))
  else if mem (lower s) ["mpa"] then Some (fmul v (Fin mega))
  else if mem (lower s) ["kpa"] then Some (fmul v (Fin kilo))
  else if mem (lower s) ["pa"] then Some v
  else if mem (lower s) ["gbar"] then Some (fmul v (Fin gbar))
  else if mem (lower s) ["mbar"] then Some (fmul v (Fin mbar))
  else if mem (lower s) ["kbar"] then Some (fmul v (Fin kbar))
  else if mem (lower s) ["bar"] then Some (fmul v (Fin bar))
  else None.
(** units.py:239-256 *)
Definition from_pascal_f (p : fp) (s : string) : option fp :=
  if mem (lower s) ["gpa"] then Some (npdiv p (Fin giga))
  else if mem (lower s) ["mpa"] then Some (npdiv p (Fin mega))
  else if mem (lower s) ["kpa"] then Some (npdiv p (Fin kilo))
  else if mem (lower s) ["pa"] then Some p
  else if mem (lower s) ["gbar"] then Some (npdiv p (Fin gbar))
  else if mem (lower s) ["mbar"] then Some (npdiv p (Fin mbar))
  else if mem (lower s) ["kbar"] then Some (npdiv p (Fin kbar))
  else if mem (lower s) ["bar"] then Some (npdiv p (Fin bar))
  else None.
(** units.py:180-257 *)
Definition convert_pressure_f (v : fp) (old new : string) : option fp :=
  through (to_pascal_f v old) (fun p => from_pascal_f p new).

(** units.py:485-494 *)
Definition to_wavenumber_f (v : fp) (s : string) : option fp :=
  if mem (lower s) ["cm^-1"] then Some v
  else if mem (lower s) ["Hz"; "hz"] then Some (npdiv v c100)
  else if mem (lower s) ["THz"; "thz"] then Some (npdiv (fmul (Fin tera) v) c100)
  else None.
(** units.py:496-505 *)
Definition from_wavenumber_f (f : fp) (s : string) : option fp :=
  if mem (lower s) ["cm^-1"] then Some f
  else if mem (lower s) ["Hz"; "hz"] then Some (fmul f c100)
  else if mem (lower s) ["THz"; "thz"] then Some (npdiv (fmul f c100) (Fin tera))
  else None.
(** units.py:451-506 *)
Definition convert_frequency_f (v : fp) (old new : string) : option fp :=
  through (to_wavenumber_f v old) (fun f => from_wavenumber_f f new).

(** units.py:541-548 *)
Definition to_metre_f (v : fp) (s : string) : option fp :=
  if mem (lower s) ["metre"; "m"] then Some v
  else if mem (lower s) ["angstrom"; "a"] then Some (fmul v A)
  else if mem (lower s) ["bohr"] then Some (fmul v B)
  else None.
(** units.py:550-557 *)
Definition from_metre_f (l : fp) (s : string) : option fp :=
  if mem (lower s) ["metre"; "m"] then Some l
  else if mem (lower s) ["angstrom"; "a"] then Some (npdiv l A)
  else if mem (lower s) ["bohr"] then Some (npdiv l B)
  else None.
(** units.py:508-559 *)
Definition convert_lenght_f (v : fp) (old new : string) : option fp :=
  through (to_metre_f v old) (fun l => from_metre_f l new).

(** units.py:595-602 *)
Definition to_metre3_f (v : fp) (s : string) : option fp :=
  if mem (lower s) ["metre"; "m"] then Some v
  else if mem (lower s) ["angstrom"; "a"] then Some (fmul v (Fin (cube_A C)))
  else if mem (lower s) ["bohr"] then Some (fmul v (Fin (cube_B C)))
  else None.
(** units.py:604-611 *)
Definition from_metre3_f (l : fp) (s : string) : option fp :=
  if mem (lower s) ["metre"; "m"] then Some l
  else if mem (lower s) ["angstrom"; "a"] then Some (npdiv l (Fin (cube_A C)))
  else if mem (lower s) ["bohr"] then Some (npdiv l (Fin (cube_B C)))
  else None.
(** units.py:561-613 *)
Definition convert_volume_f (v : fp) (old new : string) : option fp :=
  through (to_metre3_f v old) (fun l => from_metre3_f l new).

(** units.py:316-323 and 439-446: the energy unit in joule *)
Definition joule_f (s : string) : option fp :=
  if mem (lower s) ["hartree"; "ha"] then Some Ha
  else if mem (lower s) ["electron volt"; "ev"] then Some eV
  else if mem (lower s) ["rydberg"; "ry"] then Some Ry
  else None.
(** units.py:326-331 and 431-436: the volume unit in cubic metres *)
Definition metre3_f (s : string) : option fp :=
  if mem (lower s) ["angstrom"; "a"; "a^3"] then Some (Fin (cube_A C))
  else if mem (lower s) ["bohr"; "bohr^3"] then Some (Fin (cube_B C))
  else None.
(** units.py:334-351 and 411-428: the pressure unit in pascal *)
Definition pascal_f (s : string) : option fp :=
  if mem (lower s) ["gpa"] then Some (Fin giga)
  else if mem (lower s) ["mpa"] then Some (Fin mega)
  else if mem (lower s) ["kpa"] then Some (Fin kilo)
  else if mem (lower s) ["pa"] then Some (Fin 1)
  else if mem (lower s) ["gbar"] then Some (Fin gbar)
  else if mem (lower s) ["mbar"] then Some (Fin mbar)
  else if mem (lower s) ["kbar"] then Some (Fin kbar)
  else if mem (lower s) ["bar"] then Some (Fin bar)
  else None.
(** units.py:259-353: res *= energy; res /= volume; res /= pressure *)
Definition energy_to_pressure_f (v : fp) (es vs ps : string) : option fp :=
  through (joule_f es) (fun e => through (metre3_f vs) (fun w => through (pascal_f ps) (fun p =>
    Some (npdiv (npdiv (fmul v e) w) p)))).
(** units.py:355-448: res *= pressure; res *= volume; res /= energy *)
Definition pressure_to_energy_f (v : fp) (es vs ps : string) : option fp :=
  through (pascal_f ps) (fun p => through (metre3_f vs) (fun w => through (joule_f es) (fun e =>
    Some (npdiv (fmul (fmul v p) w) e)))).
End WithConstants.
