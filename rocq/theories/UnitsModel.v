(** Model of quantas/utils/physics/units.py (value level).
    Arrays: every branch is an element-wise numpy expression, so the model is
    the function on one element; [np.asanyarray] is the identity on values.
    The physical constants come from scipy.constants (lines 20-48); they are a
    record so that every theorem holds for any CODATA release. *)
From Coq Require Import String List Reals.
Import ListNotations.
From Verif Require Import Py.
Open Scope string_scope.
Open Scope R_scope.

Record constants := { N_A : R; eV_J : R; Ha_J : R; Ry_J : R;
                      Angstrom_m : R; Bohr_m : R; c_ms : R }.

(** units.py:28-37 *)
Definition kilo := 1000.
Definition mega := 1000000.
Definition giga := 1000000000.
Definition tera := 1000000000000.
Definition zero_Celsius := 27315 / 100.
(** np.power(10., 14.) etc. (units.py:229-235) *)
Definition gbar := 100000000000000.
Definition mbar := 100000000000.
Definition kbar := 100000000.
Definition bar := 100000.

(** units.py:88-99 *)
Definition to_kelvin (v : R) (s : string) : option R :=
  if mem (lower s) ["celsius"; "°c"; "c"] then Some (v + zero_Celsius)
  else if mem (lower s) ["kelvin"; "k"] then Some v
  else if mem (lower s) ["fahrenheit"; "f"] then Some ((v - 32) * 5 / 9 + zero_Celsius)
  else if mem (lower s) ["rankine"; "r"] then Some (v * 5 / 9)
  else None.

(** units.py:102-113 *)
Definition from_kelvin (t : R) (s : string) : option R :=
  if mem (lower s) ["celsius"; "°c"; "c"] then Some (t - zero_Celsius)
  else if mem (lower s) ["kelvin"; "k"] then Some t
  else if mem (lower s) ["fahrenheit"; "f"] then Some ((t - zero_Celsius) * 9 / 5 + 32)
  else if mem (lower s) ["rankine"; "r"] then Some (t * 9 / 5)
  else None.

(** units.py:50-115; [None] = NotImplementedError *)
Definition convert_temperature (v : R) (old new : string) : option R :=
  match to_kelvin v old with
  | None => None
  | Some t => from_kelvin t new
  end.

Section WithConstants.
Variable K : constants.

(** units.py:152-163 (the capitalised list entries can never equal a
    lower-cased string; they are kept verbatim) *)
Definition to_hartree (v : R) (s : string) : option R :=
  if mem (lower s) ["Hartree"; "Ha"; "ha"] then Some v
  else if mem (lower s) ["electron volt"; "eV"; "ev"] then Some (v * (eV_J K / Ha_J K))
  else if mem (lower s) ["Rydberg"; "Ry"; "ry"] then Some (v * (Ry_J K / Ha_J K))
  else if mem (lower s) ["kJ/mol"; "kj/mol"; "kjmol"] then Some (v * (1000 / Ha_J K / N_A K))
  else None.

(** units.py:165-176 *)
Definition from_hartree (e : R) (s : string) : option R :=
  if mem (lower s) ["Hartree"; "Ha"; "ha"] then Some e
  else if mem (lower s) ["electron volt"; "eV"; "ev"] then Some (e * (Ha_J K / eV_J K))
  else if mem (lower s) ["Rydberg"; "Ry"; "ry"] then Some (e * (Ha_J K / Ry_J K))
  else if mem (lower s) ["kJ/mol"; "kj/mol"; "kjmol"] then Some (e * (Ha_J K * N_A K / 1000))
  else None.

(** units.py:117-177 *)
Definition convert_energy (v : R) (old new : string) : option R :=
  match to_hartree v old with
  | None => None
  | Some e => from_hartree e new
  end.

(** units.py:220-237 *)
Definition to_pascal (v : R) (s : string) : option R :=
  if mem (lower s) ["gpa"] then Some (v * giga)
  else if mem (lower s) ["mpa"] then Some (v * mega)
  else if mem (lower s) ["kpa"] then Some (v * kilo)
  else if mem (lower s) ["pa"] then Some v
  else if mem (lower s) ["gbar"] then Some (v * gbar)
  else if mem (lower s) ["mbar"] then Some (v * mbar)
  else if mem (lower s) ["kbar"] then Some (v * kbar)
  else if mem (lower s) ["bar"] then Some (v * bar)
  else None.

(** units.py:239-256 *)
Definition from_pascal (p : R) (s : string) : option R :=
  if mem (lower s) ["gpa"] then Some (p / giga)
  else if mem (lower s) ["mpa"] then Some (p / mega)
  else if mem (lower s) ["kpa"] then Some (p / kilo)
  else if mem (lower s) ["pa"] then Some p
  else if mem (lower s) ["gbar"] then Some (p / gbar)
  else if mem (lower s) ["mbar"] then Some (p / mbar)
  else if mem (lower s) ["kbar"] then Some (p / kbar)
  else if mem (lower s) ["bar"] then Some (p / bar)
  else None.

(** units.py:180-257 *)
Definition convert_pressure (v : R) (old new : string) : option R :=
  match to_pascal v old with
  | None => None
  | Some p => from_pascal p new
  end.

(** units.py:485-494 *)
Definition to_wavenumber (v : R) (s : string) : option R :=
  if mem (lower s) ["cm^-1"] then Some v
  else if mem (lower s) ["Hz"; "hz"] then Some (v / (c_ms K * 100))
  else if mem (lower s) ["THz"; "thz"] then Some (tera * v / (c_ms K * 100))
  else None.

(** units.py:496-505 *)
Definition from_wavenumber (f : R) (s : string) : option R :=
  if mem (lower s) ["cm^-1"] then Some f
  else if mem (lower s) ["Hz"; "hz"] then Some (f * (c_ms K * 100))
  else if mem (lower s) ["THz"; "thz"] then Some (f * (c_ms K * 100) / tera)
  else None.

(** units.py:451-506 *)
Definition convert_frequency (v : R) (old new : string) : option R :=
  match to_wavenumber v old with
  | None => None
  | Some f => from_wavenumber f new
  end.

(** units.py:541-548 *)
Definition to_metre (v : R) (s : string) : option R :=
  if mem (lower s) ["metre"; "m"] then Some v
  else if mem (lower s) ["angstrom"; "a"] then Some (v * Angstrom_m K)
  else if mem (lower s) ["bohr"] then Some (v * Bohr_m K)
  else None.

(** units.py:550-557 *)
Definition from_metre (l : R) (s : string) : option R :=
  if mem (lower s) ["metre"; "m"] then Some l
  else if mem (lower s) ["angstrom"; "a"] then Some (l / Angstrom_m K)
  else if mem (lower s) ["bohr"] then Some (l / Bohr_m K)
  else None.

(** units.py:508-559 *)
Definition convert_lenght (v : R) (old new : string) : option R :=
  match to_metre v old with
  | None => None
  | Some l => from_metre l new
  end.

(** units.py:595-602; np.power(x, 3.) is x^3 *)
Definition to_metre3 (v : R) (s : string) : option R :=
  if mem (lower s) ["metre"; "m"] then Some v
  else if mem (lower s) ["angstrom"; "a"] then Some (v * (Angstrom_m K) ^ 3)
  else if mem (lower s) ["bohr"] then Some (v * (Bohr_m K) ^ 3)
  else None.

(** units.py:604-611 *)
Definition from_metre3 (l : R) (s : string) : option R :=
  if mem (lower s) ["metre"; "m"] then Some l
  else if mem (lower s) ["angstrom"; "a"] then Some (l / (Angstrom_m K) ^ 3)
  else if mem (lower s) ["bohr"] then Some (l / (Bohr_m K) ^ 3)
  else None.

(** units.py:561-613 *)
Definition convert_volume (v : R) (old new : string) : option R :=
  match to_metre3 v old with
  | None => None
  | Some l => from_metre3 l new
  end.

(** One in-place update of [energy_to_pressure]/[pressure_to_energy]:
    the factor by which [res] is multiplied ([*=]) or divided ([/=]). *)
Inductive scaling := Mul (f : R) | Div (f : R).
Definition apply_scaling (u : scaling) (x : R) : R :=
  match u with Mul f => x * f | Div f => x / f end.

(** units.py:316-323 *)
Definition e2p_energy (s : string) : option scaling :=
  if mem (lower s) ["hartree"; "ha"] then Some (Mul (Ha_J K))
  else if mem (lower s) ["electron volt"; "ev"] then Some (Mul (eV_J K))
  else if mem (lower s) ["rydberg"; "ry"] then Some (Mul (Ry_J K))
  else None.

(** units.py:326-331 *)
Definition e2p_volume (s : string) : option scaling :=
  if mem (lower s) ["angstrom"; "a"; "a^3"] then Some (Div ((Angstrom_m K) ^ 3))
  else if mem (lower s) ["bohr"; "bohr^3"] then Some (Div ((Bohr_m K) ^ 3))
  else None.

(** units.py:334-351 *)
Definition e2p_pressure (s : string) : option scaling :=
  if mem (lower s) ["gpa"] then Some (Div giga)
  else if mem (lower s) ["mpa"] then Some (Div mega)
  else if mem (lower s) ["kpa"] then Some (Div kilo)
  else if mem (lower s) ["pa"] then Some (Div 1)
  else if mem (lower s) ["gbar"] then Some (Div gbar)
  else if mem (lower s) ["mbar"] then Some (Div mbar)
  else if mem (lower s) ["kbar"] then Some (Div kbar)
  else if mem (lower s) ["bar"] then Some (Div bar)
  else None.

(** units.py:411-428 *)
Definition p2e_pressure (s : string) : option scaling :=
  if mem (lower s) ["gpa"] then Some (Mul giga)
  else if mem (lower s) ["mpa"] then Some (Mul mega)
  else if mem (lower s) ["kpa"] then Some (Mul kilo)
  else if mem (lower s) ["pa"] then Some (Mul 1)
  else if mem (lower s) ["gbar"] then Some (Mul gbar)
  else if mem (lower s) ["mbar"] then Some (Mul mbar)
  else if mem (lower s) ["kbar"] then Some (Mul kbar)
  else if mem (lower s) ["bar"] then Some (Mul bar)
  else None.

(** units.py:431-436 *)
Definition p2e_volume (s : string) : option scaling :=
  if mem (lower s) ["angstrom"; "a"; "a^3"] then Some (Mul ((Angstrom_m K) ^ 3))
  else if mem (lower s) ["bohr"; "bohr^3"] then Some (Mul ((Bohr_m K) ^ 3))
  else None.

(** units.py:439-446 *)
Definition p2e_energy (s : string) : option scaling :=
  if mem (lower s) ["hartree"; "ha"] then Some (Div (Ha_J K))
  else if mem (lower s) ["electron volt"; "ev"] then Some (Div (eV_J K))
  else if mem (lower s) ["rydberg"; "ry"] then Some (Div (Ry_J K))
  else None.

(** Run a list of in-place scalings, each of which may raise.
    [(x, ok)]: the value reached and whether the end was reached. *)
Fixpoint run_scalings (l : list (option scaling)) (x : R) : R * bool :=
  match l with
  | nil => (x, true)
  | cons None _ => (x, false)
  | cons (Some u) r => run_scalings r (apply_scaling u x)
  end.

(** units.py:314-353 *)
Definition e2p_steps (es vs ps : string) : list (option scaling) :=
  cons (e2p_energy es) (cons (e2p_volume vs) (cons (e2p_pressure ps) nil)).
(** units.py:409-448 *)
Definition p2e_steps (es vs ps : string) : list (option scaling) :=
  cons (p2e_pressure ps) (cons (p2e_volume vs) (cons (p2e_energy es) nil)).

Definition done (r : R * bool) : option R := if snd r then Some (fst r) else None.

(** Return values (the effect on the caller's array is in UnitsHeapModel.v). *)
Definition energy_to_pressure (v : R) (es vs ps : string) : option R :=
  done (run_scalings (e2p_steps es vs ps) v).
Definition pressure_to_energy (v : R) (es vs ps : string) : option R :=
  done (run_scalings (p2e_steps es vs ps) v).

End WithConstants.
