(** Model of the temperature/pressure ranges of QHACalculator and HACalculator
    and of QHACalculator.fine_grid. Numbers are exact reals: numpy's rounding of
    (stop - start)/step is not modelled. *)
From Coq Require Import Reals List ZArith.
From Verif Require Import StatMechModel.
Import ListNotations.
Open Scope R_scope.

Definition ceil (x : R) : Z := (- Int_part (- x))%Z.
(** np.arange on Python floats: ceil((stop - start)/step) values, none when that
    is not positive; a zero step raises ZeroDivisionError (None). *)
Definition arange (start stop step : R) : option (list R) :=
  if Req_b step 0 then None
  else Some (map (fun i => start + INR i * step) (seq 0 (Z.to_nat (ceil ((stop - start) / step))))).
(** qha.py:287 and 313, harmonic.py:136: np.arange(r[0], r[1]+r[2], r[2]) *)
Definition set_range (r : R * R * R) : option (list R) :=
  let '(lo, hi, step) := r in arange lo (hi + step) step.

(** qha.py:936-959. np.arange(minimum, maximum, 1) on integers; [npoints] is a
    natural number, [//] the floor division. *)
Definition fine_grid (npoints : nat) (separation : R) : list R * nat :=
  let spacing := separation / 100 in
  let maximum := (- (Z.of_nat npoints / 2 - Z.of_nat npoints))%Z in
  let minimum := (maximum - Z.of_nat npoints)%Z in
  let expansion := map (fun i => IZR (minimum + Z.of_nat i) * spacing) (seq 0 (Z.to_nat (maximum - minimum))) in
  (expansion, (List.length expansion / 2)%nat).
(** qha.py:572, 842: volume + (volume * grid) *)
Definition volume_grid (v : R) (g : list R) : list R := map (fun e => v + v * e) g.
