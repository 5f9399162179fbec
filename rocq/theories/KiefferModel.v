(** Model of /repo/quantas/qha/utils/kieffer.py: the contribution of acoustic
    branches with a sine dispersion. Exact reals. scipy.integrate.quad is a
    parameter (function and bounds; the requested accuracy is left out); np.power
    with exponent 0.5 is the square root. *)
From Coq Require Import Reals List.
Import ListNotations.
Open Scope R_scope.

Section Kieffer.
Variable quad : (R -> R) -> R -> R -> R.
(** scipy.constants *)
Variables NA h kb : R.
(** kieffer.py:83-88 *)
Definition helmholtz_function (T xnti x : R) : R :=
  let xi := xnti / T in (asin (x / xi)) ^ 2 * ln (1 - exp (- x)) / sqrt (xi ^ 2 - x ^ 2).
(** 139-165 *)
Definition heat_capacity_function (T xnti x : R) : R :=
  let xi := xnti / T in (asin (x / xi)) ^ 2 * x ^ 2 * exp x / (sqrt (xi ^ 2 - x ^ 2) * (exp x - 1) ^ 2).
(** 200-228 *)
Definition entropy_function (T xnti x : R) : R :=
  let xi := xnti / T in
  (asin (x / xi)) ^ 2 * x / (sqrt (xi ^ 2 - x ^ 2) * (exp x - 1) ^ 2) - (asin (x / xi)) ^ 2 * ln (1 - exp (- x)) / sqrt (xi ^ 2 - x ^ 2).
Definition wmin : R := / 1000000.
(** 90-98 *)
Definition helmholtz_integral (T xnti : R) : R :=
  if Req_EM_T T 0 then 0 else quad (helmholtz_function T xnti) wmin (xnti / T) * (3 * T * NA * kb * (2 / PI) ^ 3).
(** 167-174 *)
Definition heat_capacity_integral (T xnti : R) : R :=
  if Req_EM_T T 0 then 0 else quad (heat_capacity_function T xnti) wmin (xnti / T) * 3 * NA * kb * (2 / PI) ^ 3.
(** 230-237: the upper bound is 0.999 of the cut-off *)
Definition entropy_integral (T xnti : R) : R :=
  if Req_EM_T T 0 then 0 else quad (entropy_function T xnti) wmin (999 / 1000 * (xnti / T)) * 3 * NA * kb * (2 / PI) ^ 3.
(** 56-64, 77-80, 117-120, 193-196: sums over the branches *)
Definition over_branches (f : R -> R -> R) (freqs : list R) (T : R) : R :=
  fold_left (fun value xnti => value + f T xnti) (map (fun nu => nu * h / kb) freqs) 0.
Definition helmholtz : list R -> R -> R := over_branches helmholtz_integral.
Definition heat_capacity : list R -> R -> R := over_branches heat_capacity_integral.
Definition entropy : list R -> R -> R := over_branches entropy_integral.
End Kieffer.
