(** The printed reports of the (quasi-)harmonic calculators.
    - /repo/quantas/qha/qha.py:346-436 (report_input_data), 505-519 and 1175-1190
      (frequency fits), 1192-1226 (report_results)
    - /repo/quantas/harmonic/harmonic.py:155-182 (report_input_data)
    One string per printed line. Numbers are exact reals until they are printed;
    the shortest text of a float is a parameter, except for numbers rounded to a
    given number of decimals (no exponent, no negative zero). *)
From Coq Require Import Reals String Ascii List Bool Arith ZArith NArith.
From Flocq Require Import Core.
From Verif Require Import Py DecimalModel FormatModel FormatProofs TableModel UnitsModel StatMechModel GridModel PolyModel EvEosModel QhaRunModel ReportModel.
Import ListNotations.
Open Scope string_scope.
Open Scope list_scope.
Open Scope nat_scope.

(** np.gradient(f, x) with coordinates: second order inside, first order at the
    two ends; fewer than two values raise ValueError. *)
Definition np_gradient (n : nat) (f x : nat -> R) : outcome (nat -> R) :=
  if n <? 2 then Raises "ValueError"
  else Ok (fun i => (
    if i =? 0 then (f 1%nat - f 0%nat) / (x 1%nat - x 0%nat)
    else if S i =? n then (f i - f (i - 1)%nat) / (x i - x (i - 1)%nat)
    else let dx1 := x i - x (i - 1)%nat in let dx2 := x (S i) - x i in
      - dx2 / (dx1 * (dx1 + dx2)) * f (i - 1)%nat + (dx2 - dx1) / (dx1 * dx2) * f i + dx1 / (dx2 * (dx1 + dx2)) * f (S i))%R).

(** '{}' of a float which is n/10^k with k > 0: its decimals without the zeros at
    the end, but at least one *)
Fixpoint strip_zeros (k : nat) (n : N) : nat * N :=
  match k with
  | S k' => match k' with S _ => if (n mod 10 =? 0)%N then strip_zeros k' (n / 10)%N else (k, n) | O => (k, n) end
  | O => (k, n)
  end.
Definition repr_decimal (k : nat) (z : Z) : string :=
  let '(k', n) := strip_zeros k (Z.to_N (Z.abs z)) in minus_or "" (z <? 0)%Z +++ print_fixed k' n.

Section Concise.
(** '{}' of any other float *)
Variable float_text : R -> string.
(** 397-422; log10 is the exact one. A standard error of nan cannot be made an
    integer (ValueError is not caught); 0 and inf are (OverflowError). *)
Definition concise (label : string) (v : R) (err : shown) : outcome string :=
  let verbatim e := label +++ " = " +++ float_text v +++ "(" +++ e +++ ")" in
  match err with
  | Nan => Raises "ValueError"
  | Inf => Ok (verbatim "inf")
  | Fin e =>
      if Rlt_bool e 0 then Raises "ValueError"
      else if Req_bool e 0 then Ok (verbatim (float_text e))
      else
        let m0 := (if Rlt_bool e 1 then - exponent e else exponent e)%Z in
        let m := (if 10 <=? ZnearestE (e * powerRZ 10 m0) then m0 - 1 else m0)%Z in
        let n := ZnearestE (v * powerRZ 10 m) in
        let value := if (0 <? m)%Z then repr_decimal (Z.to_nat m) n else int_text (n * 10 ^ (- m))%Z in
        Ok (label +++ " = " +++ value +++ "(" +++ int_text (ZnearestE (e * powerRZ 10 m)) +++ ")")
  end.
End Concise.

(** '- {0:40} {1}' *)
Definition item (label value : string) : string := "- " +++ pad_right 40 label +++ " " +++ value.
Fixpoint each {A B} (f : A -> outcome B) (l : list A) : outcome (list B) :=
  match l with [] => Ok [] | a :: r => let? b := f a in let? bs := each f r in Ok (b :: bs) end.

(** What the report takes from the reader besides [input] *)
Record header := { job : string; natoms : Z; kpoints : Z }.
(** 355-370, harmonic.py:163-175 *)
Definition system_lines (h : header) (x : input) : list string :=
  [""; "Job: " +++ job h; ""; "System:"; item "Number of volumes" (int_text (Z.of_nat (nvol x))); item "Number of atoms" (int_text (natoms h));
   item "Number of sampled k-points" (int_text (kpoints h)); item "Number of frequencies" (int_text (Ztrunc (IZR (natoms h * 3) * total_q_points x))); "";
   "Volume and energy values:"; ""].

Section Report.
Variable K : constants.
(** EnergyEOS.fit: parameters E0, K0, K', V0, and their standard errors *)
Variable eos_fit : string -> nat -> (nat -> R) -> (nat -> R) -> outcome ((R * R * R * R) * (shown * shown * shown * shown)).
Variable float_text : R -> string.
Variable s : settings.
Variable x : input.
Definition scale_shown (f : R -> outcome R) (v : shown) : outcome shown := match v with Fin y => let? z := f y in Ok (Fin z) | _ => Ok v end.
(** 371-384: the pressures at the input volumes, and with an equation of state the
    lines of its parameters *)
Definition input_pressures : outcome ((nat -> R) * list string) :=
  if eos_on s then
    let? f := eos_fit (eos_function s) (nvol x) (volume x) (fun k => (static_energy x k + 0 * volume x k)%R) in
    let '((e0, k0, k1, v0), (se, sk, sk1, sv)) := f in
    let? k := e2p K s k0 in
    let? sk' := scale_shown (e2p K s) sk in
    match pressure (eos_function s) e0 k k1 v0 0 with
    | None => Raises "UnboundLocalError"
    | Some _ =>
        let? lines := each (fun '(l, v, e) => concise float_text l v e) [("E0", e0, se); ("K0", k, sk'); ("K'", k1, sk1); ("V0", v0, sv)] in
        Ok ((fun i => match pressure (eos_function s) e0 k k1 v0 (volume x i) with Some p => p | None => 0%R end),
            [""; "EoS fitting parameters for static energy vs volume data:"] ++ lines)
    end
  else
    let? g := np_gradient (nvol x) (static_energy x) (volume x) in
    let? c := conversion (fun e => energy_to_pressure K e (eunit s) (vunit s) (punit s)) in
    Ok ((fun i => (- c (g i))%R), []).
Definition kieffer_warning (h : header) : list string :=
  if (1 <? kpoints h)%Z && kieffer_on s then
    ["WARNING! The Kieffer's method for acoustic frequencies was requested."; "However, it seems that more than Gamma-point phonons are reported in ";
     "the provided input file."; "Please, check the consistency of the final results."]
  else [].
(** 346-436 *)
Definition report_input (h : header) : outcome (list string) :=
  bind input_pressures (fun '(ps, parameters) =>
  Ok (system_lines h x ++
      [" " +++ pad_right 15 ("Pressure (" +++ punit s +++ ")") +++ " " +++ center 15 ("Volume (" +++ vunit s +++ "^3)") +++ " " +++ center 30 ("Energy (" +++ eunit s +++ ")");
       " " +++ rule 15 +++ " " +++ rule 15 +++ " " +++ rule 30] ++
      map (fun i => " " +++ right 15 3 (Fin (ps i)) +++ " " +++ centred 15 6 (Fin (volume x i)) +++ " " +++ centred_e 30 12 (static_energy x i)) (seq 0 (nvol x)) ++
      parameters ++ [""] ++ kieffer_warning h ++ [""])).
(** harmonic.py:155-182 *)
Definition report_input_ha (h : header) : list string :=
  system_lines h x ++
  [" " +++ center 15 ("Volume (" +++ vunit s +++ "^3)") +++ " " +++ center 30 ("Energy (" +++ eunit s +++ ")"); " " +++ rule 15 +++ " " +++ rule 30] ++
  map (fun i => " " +++ centred 15 6 (Fin (volume x i)) +++ " " +++ centred_e 30 12 (static_energy x i)) (seq 0 (nvol x)) ++ [""].

(** 512-518: R^2 of every mode; fpars[i] = polyfit(volume, phonons[i], fdeg) *)
Variable np_polyfit : nat -> (nat -> R) -> (nat -> R) -> nat -> list R.
Definition fit_quality (phonons : bands) (q : nat) : nat -> R :=
  multi_R2 (nf phonons) (S (fdeg s)) (nvol x) (volume x) (freq phonons q)
    (fun b k => nth k (np_polyfit (nvol x) (volume x) (freq phonons q b) (fdeg s)) 0%R).
(** 1175-1190 *)
Definition tab : string := String "009" "".
Definition flag (r2 : R) : string :=
  if Rle_dec (90 / 100) r2 then "OK" else if Rle_dec (80 / 100) r2 then "Low" else "BAD!".
Definition mode_line (j : nat) (r2 : R) : string :=
  "   * Frequency " +++ pad_left 5 (int_text (Z.of_nat (j + 1))) +++ ": R^2 = " +++ fix_text 6 r2 +++ tab +++ flag r2.
Definition average (n : nat) (r : nat -> R) : R := (fold_left (fun a j => a + r j) (seq 0 n) 0 / INR n)%R.
Definition report_fit (nf : nat) (q : nat) (r2 : nat -> R) : list string :=
  [" - Band # " +++ int_text (Z.of_nat q)] ++ map (fun j => mode_line j (r2 j)) (seq 0 nf) ++ ["   Averaged R^2: " +++ fix_text 6 (average nf r2); ""].
(** 506-519 *)
Definition report_fits (phonons : bands) : list string :=
  ["";" - Fitting frequency using polynomial of order " +++ int_text (Z.of_nat (fdeg s))] ++
  flat_map (fun q => report_fit (nf phonons) q (fit_quality phonons q)) (seq 0 (nb phonons)).

(** 1192-1226 *)
Definition bar_line : string := "#" +++ rule 78 +++ "#".
Definition result_row (t v a kt ks c : R) : string :=
  right 7 1 (Fin t) +++ " " +++ right 14 6 (Fin v) +++ " " +++ right_e 16 8 a +++ " " +++ right 9 3 (Fin kt) +++ " " +++ right 9 3 (Fin ks) +++ " " +++ right 16 6 (Fin c) +++ " ".
Definition report_results (temperature pressures : list R) (r : results) : outcome (list string) :=
  let? ce := from_eunit K s in
  Ok (flat_map (fun i =>
    [""; bar_line; "# Results at " +++ float_text (nth i pressures 0%R) +++ " " +++ punit s; bar_line; "";
     center 7 ("T (" +++ tunit s +++ ")") +++ " " +++ center 14 "V(T) (A^3)" +++ " " +++ center 16 "a_V (K^-1)" +++ " " +++
     center 9 ("KT (" +++ punit s +++ ")") +++ " " +++ center 9 ("KS (" +++ punit s +++ ")") +++ " " +++ center 16 "Cp-Cv (J/mol K)";
     rule 7 +++ " " +++ rule 14 +++ " " +++ rule 16 +++ " " +++ rule 9 +++ " " +++ rule 9 +++ " " +++ rule 16] ++
    map (fun j => result_row (nth j temperature 0%R) (VT r j i) (alphaV r j i) (KT r j i) (KS r j i) (ce (CpCv r j i))) (seq 0 (List.length temperature)) ++ [""])
    (seq 0 (List.length pressures))).
End Report.
