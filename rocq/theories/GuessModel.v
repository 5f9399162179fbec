(** Model of the starting values of the two kinds of fit: EnergyEOS.guess and
    EnergyEOS.fit (quantas/qha/utils/ev_eos.py:67-156) and EOS.guess
    (quantas/eosfit/utils/pv_eos.py:43-69). Numbers are exact reals; np.polyfit,
    np.roots and scipy's curve_fit are parameters. Coefficients are kept in
    ascending order (np.polyfit, np.polyder, np.polyval and np.roots use the
    descending one, consistently). *)
From Coq Require Import Reals String List Bool Arith.
From Verif Require Import StatMechModel ThermoModel PolyModel PolyfitProofs EvEosModel QhaRunModel ReportModel.
Import ListNotations.
Open Scope string_scope.
Open Scope list_scope.
Open Scope R_scope.

(** z * np.conj(z), ev_eos.py:149: real and imaginary parts of the product *)
Definition times_conj (z : R * R) : R * R :=
  let (a, b) := z in (a * a - b * (- b), a * (- b) + b * a).
(** np.argmin, ev_eos.py:150: the position of the first smallest value. Complex
    numbers are compared by their real parts first; the imaginary parts are all
    zero here, so that the real parts decide. *)
Fixpoint argmin_from (best : R) (at_best i : nat) (l : list R) : nat :=
  match l with
  | [] => at_best
  | y :: r => if Rle_b best y then argmin_from best at_best (S i) r else argmin_from y i (S i) r
  end.
Definition argmin (l : list R) : option nat :=
  match l with [] => None | x :: r => Some (argmin_from x 0 1 r) end.

Section Guess.
Variable np_polyfit : fit_function.
Variable roots : list R -> list (R * R).

(** np.polyfit: TypeError for empty data *)
Definition polyfit (n : nat) (X Y : nat -> R) (d : nat) : outcome (list R) :=
  if (n =? 0)%nat then Raises "TypeError" else Ok (np_polyfit n X Y d).

(** ev_eos.py:145-156: E0, K0, K' and V0. np.argmin raises ValueError when the
    derivative has no roots (a constant). *)
Definition ev_guess (n : nat) (V E : nat -> R) : outcome (R * R * R * R) :=
  let? pars := polyfit n V E 4 in
  let first_derivative := deriv pars in
  let second_derivative := deriv (deriv pars) in
  let V_roots := roots first_derivative in
  let Vs := map times_conj V_roots in
  match argmin (map fst Vs) with
  | None => Raises "ValueError"
  | Some root_minimum =>
      let V0 := fst (nth root_minimum V_roots (0, 0)) in
      let E0 := polyval V0 pars in
      let K0 := V0 * polyval V0 second_derivative in
      Ok (E0, K0, 4, V0)
  end.

(** scipy.optimize.curve_fit(f, V, E, p0): the parameters, and the diagonal of
    their covariance (infinite when it cannot be estimated). The parameters come
    in the order of the arguments of f after V: E0, K0, K', V0. *)
Variable curve_fit : ev_form -> nat -> (nat -> R) -> (nat -> R) -> R * R * R * R ->
  outcome ((R * R * R * R) * (shown * shown * shown * shown)).
(** np.sqrt; nan for negative numbers *)
Definition sqrt_shown (v : shown) : shown :=
  match v with Fin x => if Rle_b 0 x then Fin (sqrt x) else Nan | Inf => Inf | Nan => Nan end.
(** ev_eos.py:67-101. An unknown tag gives None, which eval does not accept
    (TypeError), after the guess has been made. *)
Definition ev_fit (tag : string) (n : nat) (V E : nat -> R) : outcome ((R * R * R * R) * (shown * shown * shown * shown)) :=
  let eos := set_eos_type tag in
  let? p0 := ev_guess n V E in
  match eos with
  | None => Raises "TypeError"
  | Some form =>
      let? f := curve_fit form n V E p0 in
      let '(parameters, (c1, c2, c3, c4)) := f in
      Ok (parameters, (sqrt_shown c1, sqrt_shown c2, sqrt_shown c3, sqrt_shown c4))
  end.

(** pv_eos.py:60-69: K0, K', K'' and V0 *)
Definition pv_guess (n : nat) (V P : nat -> R) : outcome (list R) :=
  let? vp := polyfit n P V 3 in
  let V0 := polyval 0 vp in
  let? pv := polyfit n V P 3 in
  let dp := deriv pv in
  let K0 := - V0 * polyval V0 dp in
  let KP := 4 in
  let KPP := 0 in
  Ok [K0; KP; KPP; V0].
End Guess.
