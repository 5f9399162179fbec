(** Model of QHACalculator (qha.py:438-1173) and HACalculator.run
    (harmonic.py:211-294): which kernel is applied to what, in which units, and
    where each result is stored. Numbers are exact reals. External to the model:
    np.polynomial.polynomial.polyfit, Polynomial.roots, EnergyEOS.fit (scipy's
    curve_fit) and the two Kieffer integrals are parameters. Output to the
    terminal is left out. *)
From Coq Require Import Reals String List Bool Arith.
From Verif Require Import Py ParModel StatMechModel ThermoModel UnitsModel PolyModel GridModel.
Import ListNotations.
Open Scope string_scope.
Open Scope list_scope.
Open Scope R_scope.

Inductive outcome (A : Type) := Ok (a : A) | Raises (exception : string).
Arguments Ok {A} a. Arguments Raises {A} exception.
Definition bind {A B} (x : outcome A) (f : A -> outcome B) : outcome B :=
  match x with Ok a => f a | Raises e => Raises e end.
Notation "'let?' x ':=' e 'in' f" := (bind e (fun x => f)) (at level 200, x name, right associativity).

(** An element-wise conversion applied to an array: NotImplementedError for an
    unknown unit whatever the values. *)
Definition conversion (f : R -> option R) : outcome (R -> R) :=
  match f 0 with
  | None => Raises "NotImplementedError"
  | Some _ => Ok (fun x => match f x with Some y => y | None => 0 end)
  end.
(** for i in range(n): for j in range(m): table[i, j] = f(i, j) *)
Fixpoint first_error {A} (l : list (outcome A)) : option string :=
  match l with [] => None | Ok _ :: r => first_error r | Raises e :: _ => Some e end.
Definition table {A} (d : A) (n m : nat) (f : nat -> nat -> outcome A) : outcome (nat -> nat -> A) :=
  match first_error (flat_map (fun i => map (f i) (seq 0 m)) (seq 0 n)) with
  | Some e => Raises e
  | None => Ok (fun i j => match f i j with Ok a => a | Raises _ => d end)
  end.

(** The part of the settings used after construction (qha.py:137-183). *)
Record settings := {
  qha_scheme : string; minimization : string; eos_function : string; kieffer_on : bool;
  edeg : nat; fdeg : nat;
  eunit : string; funit : string; vunit : string; tunit : string; punit : string }.
(** The reader's properties used by the calculators. *)
Record input := {
  nvol : nat; volume : nat -> R; static_energy : nat -> R;
  frequencies : bands; weights : nat -> R; total_q_points : R }.
(** The _results dictionary (qha.py:199-217) *)
Record results := {
  Uzp : mat; Uth : mat; Utot : mat; Ent : mat; F : mat; Fvib : mat; Cv : mat; VT : mat;
  KT : mat; Kp : mat; H : mat; G : mat; alphaV : mat; CpCv : mat; Cp : mat; KS : mat; gruneisen : mat }.

Section Calculator.
Variable K : constants.
Variables hplanck kboltzmann : R.
(** scipy's Avogadro constant in every module *)
Definition P : phys := {| hpl := hplanck; KB := kboltzmann; NA := N_A K |}.
Variable np_polyfit : nat -> (nat -> R) -> (nat -> R) -> nat -> list R.
Variable roots : list R -> list (R * R).
(** EnergyEOS.fit(tag, V, E)[0]: E0, K0, K', V0 *)
Variable eos_fit : string -> nat -> (nat -> R) -> (nat -> R) -> outcome (R * R * R * R).
(** Kieffer(acoustic[:, j]).heat_capacity(T) and .entropy(T) *)
Variables kieffer_Cv kieffer_S : nat -> R -> R.
Variable s : settings.
Variable x : input.

Definition poly_on := String.eqb (minimization s) "poly".
Definition eos_on := String.eqb (minimization s) "eos".
Definition weight (q : nat) : R := weights x q / total_q_points x.

(** convert_energy(..., 'kjmol', self._eunit) *)
Definition to_eunit := conversion (fun e => convert_energy K e "kjmol" (eunit s)).
Definition from_eunit := conversion (fun e => convert_energy K e (eunit s) "kjmol").
Definition e2p (e : R) : outcome R :=
  match energy_to_pressure K e (eunit s) (vunit s) (punit s) with Some p => Ok p | None => Raises "NotImplementedError" end.
(** qha.py:989-1008 *)
Definition set_target_pressure (p : R) : outcome R :=
  match pressure_to_energy K p (eunit s) (vunit s) (punit s) with Some e => Ok e | None => Raises "NotImplementedError" end.

(** qha.py:961-987 *)
Definition find_eos_minimum (V Fe : nat -> R) (p : R) : outcome (R * R * R * R) :=
  let? p0 := set_target_pressure p in
  eos_fit (eos_function s) (nvol x) V (fun k => Fe k + p0 * V k).
(** qha.py:1010-1063; with neither minimisation selected the method returns
    None, which the callers cannot unpack. *)
Definition minimize_volume (V Fe : nat -> R) (p : R) (parameters : option (list R)) : outcome (R * R * R) :=
  if poly_on then
    let pars := match parameters with Some c => c | None => np_polyfit (nvol x) V Fe (edeg s) end in
    let? p0 := set_target_pressure p in
    match volume_at roots pars p0 with Some v => Ok (v, 0, 0) | None => Raises "IndexError" end
  else if eos_on then
    bind (find_eos_minimum V Fe p) (fun '(e0, k0, k1, v0) =>
    let? k := e2p k0 in
    Ok (v0, k, k1))
  else Raises "TypeError".

(** qha.py:1065-1111 *)
Definition numerical_bulk_modulus (n : nat) (V Fe : nat -> R) (idx : nat) : outcome (R * R) :=
  let f := np_polyfit n V Fe (edeg s) in
  let df := deriv f in
  let d2f := deriv (deriv f) in
  let? conv := conversion (fun e => energy_to_pressure K e (eunit s) (vunit s) (punit s)) in
  let pressures k := - conv (polyval (V k) df) in
  let KTs k := conv (V k * polyval (V k) d2f) in
  let dp := deriv (np_polyfit n pressures KTs 2) in
  Ok (KTs idx, polyval (pressures idx) dp).

Section Grid.
Variables nt np : nat.
(** temperature in kelvin, pressure in the user's unit *)
Variables T pressure : nat -> R.
Variables (grid : list R) (idx : nat).
Variable phonons : bands.
Definition grid_at (v : R) : nat -> R := fun k => nth k (volume_grid v grid) 0.

(** A results dictionary holding what the two schemes fill in (qha.py:199-217
    zeroes everything first). *)
Definition scheme_results uzp uth utot ent f fvib cv vt kt kp : results :=
  {| Uzp := uzp; Uth := uth; Utot := utot; Ent := ent; F := f; Fvib := fvib; Cv := cv; VT := vt;
     KT := kt; Kp := kp; H := zeros; G := zeros; alphaV := zeros; CpCv := zeros; Cp := zeros;
     KS := zeros; gruneisen := zeros |}.

(** qha.py:576 interpolate(volume_grid, fpars) for a three-dimensional array *)
Definition phon_grid (fpars : nat -> nat -> list R) (V : nat -> R) : bands :=
  {| nb := nb phonons; nf := nf phonons; nv := List.length grid;
     freq := fun q => multi_interpolate_array (nf phonons) (S (fdeg s)) (List.length grid) V (fun b k => nth k (fpars q b) 0) |}.

(** qha.py:480-625 *)
Definition run_frequency_interpolation : outcome results :=
  let V := volume x in
  let fpars q b := np_polyfit (nvol x) V (fun k => freq phonons q b k) (fdeg s) in
  let energy_pars := np_polyfit (nvol x) V (static_energy x) (edeg s) in
  let? ce := to_eunit in
  let F_ha := free_energy nt (nvol x) (static_energy x)
                (fun i j => ce (vibrational_free_energy P nt T phonons weight i j)) in
  let? vk := table (0, 0, 0) nt np (fun i j => minimize_volume V (F_ha i) (pressure j) None) in
  let vt i j := fst (fst (vk i j)) in
  let V_grid i j := grid_at (vt i j) in
  let at_grid ho tk i j := ce (band_loop ho 1 (fun _ => tk i) (phon_grid fpars (V_grid i j)) weight 0%nat idx) in
  let F_grid i j k := polyval (V_grid i j k) energy_pars
       + ce (vibrational_free_energy P 1 (fun _ => T i) (phon_grid fpars (V_grid i j)) weight 0%nat k) in
  let U_grid i j k := polyval (V_grid i j k) energy_pars
       + ce (zero_point_energy P 1 (fun _ => 0) (phon_grid fpars (V_grid i j)) weight 0%nat k)
       + ce (thermal_energy P 1 (fun _ => T i) (phon_grid fpars (V_grid i j)) weight 0%nat k) in
  let? kk := (if poly_on
              then table (0, 0) nt np (fun i j => numerical_bulk_modulus (List.length grid) (V_grid i j) (F_grid i j) idx)
              else Ok (fun i j => (snd (fst (vk i j)), snd (vk i j)))) in
  Ok (scheme_results (at_grid (ho_zpe P) (fun _ => 0)) (at_grid (ho_eth P) T) (fun i j => U_grid i j idx)
        (at_grid (ho_S P) T) (fun i j => F_grid i j idx) (at_grid (ho_F P) T) (at_grid (ho_Cv P) T) vt
        (fun i j => fst (kk i j)) (fun i j => snd (kk i j))).

(** qha.py:627-849; [acoustic] tells whether the Kieffer correction is added. *)
Definition run_thermodynamics_interpolation (acoustic : bool) : outcome results :=
  let V := volume x in
  let? ce := to_eunit in
  let Uzp_ha j := ce (zero_point_energy P 1 (fun _ => 0) phonons weight 0%nat j) in
  let Uth_ha i j := ce (thermal_energy P nt T phonons weight i j) in
  let S_aco i j := if acoustic then ce (kieffer_S j (T i)) else 0 in
  let Cv_aco i j := if acoustic then ce (kieffer_Cv j (T i)) else 0 in
  let S_ha i j := ce (entropy P nt T phonons weight i j) + S_aco i j in
  let Cv_ha i j := ce (isochoric_heat_capacity P nt T phonons weight i j) + Cv_aco i j in
  let Fvib0 i j := ce (vibrational_free_energy P nt T phonons weight i j) in
  let Fvib_ha i j := Fvib0 i j - T i * S_aco i j * / 1000 in
  let U_ha := internal_energy nt (nvol x) (static_energy x) Uzp_ha Uth_ha in
  let F_ha i j := free_energy nt (nvol x) (static_energy x) Fvib0 i j - T i * S_aco i j * / 1000 in
  let pars (Y : mat) i := np_polyfit (nvol x) V (Y i) (edeg s) in
  let? vk := table (0, 0, 0) nt np (fun i j => minimize_volume V (F_ha i) (pressure j) (Some (pars F_ha i))) in
  let vt i j := fst (fst (vk i j)) in
  let interp (Y : mat) i j := polyval (vt i j) (pars Y i) in
  let? kk := (if poly_on
              then table (0, 0) nt np (fun i j =>
                     numerical_bulk_modulus (List.length grid) (grid_at (vt i j))
                       (fun k => polyval (grid_at (vt i j) k) (pars F_ha i)) idx)
              else Ok (fun i j => (snd (fst (vk i j)), snd (vk i j)))) in
  Ok (scheme_results (interp (fun _ => Uzp_ha)) (interp Uth_ha) (interp U_ha) (interp S_ha) (interp F_ha)
        (interp Fvib_ha) (interp Cv_ha) vt (fun i j => fst (kk i j)) (fun i j => snd (kk i j))).

(** qha.py:1113-1173 *)
Definition set_enthalpy (r : results) : outcome mat :=
  let? cv := conversion (fun v => convert_volume K v (vunit s) "m") in
  let? cp := conversion (fun p => convert_pressure p (punit s) "Pa") in
  let? ce := from_eunit in
  let? ce' := to_eunit in
  let res := enthalpy (N_A K) nt np (fun i j => cv (VT r i j)) (fun j => cp (pressure j)) (fun i j => ce (Utot r i j)) in
  Ok (fun i j => ce' (res i j)).
Definition set_gibbs_free_energy (r : results) : outcome mat :=
  let? cv := conversion (fun v => convert_volume K v (vunit s) "m") in
  let? cp := conversion (fun p => convert_pressure p (punit s) "Pa") in
  let? ce := from_eunit in
  let? ce' := to_eunit in
  let res := gibbs (N_A K) nt np (fun i j => cv (VT r i j)) (fun j => cp (pressure j)) (fun i j => ce (F r i j)) in
  Ok (fun i j => ce' (res i j)).

(** qha.py:895-900: dV[0:-1] = diff(V)/diff(T), dV[-1] from the last two *)
Definition volume_slope (V : nat -> R) (i : nat) : R :=
  if (S i <? nt)%nat then (V (S i) - V i) / (T (S i) - T i)
  else (V (nt - 1)%nat - V (nt - 2)%nat) / (T (nt - 1)%nat - T (nt - 2)%nat).
(** qha.py:851-934 *)
Definition finalize_run (r : results) : outcome results :=
  let? h := set_enthalpy r in
  let? g := set_gibbs_free_energy r in
  if (nt <? 50)%nat then
    Ok {| Uzp := Uzp r; Uth := Uth r; Utot := Utot r; Ent := Ent r; F := F r; Fvib := Fvib r; Cv := Cv r; VT := VT r;
          KT := KT r; Kp := Kp r; H := h; G := g; alphaV := zeros; CpCv := zeros; Cp := zeros; KS := KT r;
          gruneisen := zeros |}
  else
    let? cp := conversion (fun p => convert_pressure p (punit s) "Pa") in
    let? cp' := conversion (fun p => convert_pressure p "Pa" (punit s)) in
    let? cv := conversion (fun v => convert_volume K v (vunit s) "m") in
    let? ce := from_eunit in
    let? ce' := to_eunit in
    let alpha i j := volume_slope (fun i => VT r i j) i / VT r i j in
    let corr i j := alpha i j ^ 2 * cp (KT r i j) * cv (VT r i j) * (N_A K * T i) in
    let cpcv i j := ce' (corr i j) in
    let ks := adiabatic_bulk_modulus (N_A K) nt np T (fun i j => cv (VT r i j)) (fun i j => cp (KT r i j))
                alpha (fun i j => ce (Cv r i j)) 1 in
    let gr := gruneisen_parameter (N_A K) nt np (fun i j => cv (VT r i j)) (fun i j => cp (KT r i j))
                alpha (fun i j => ce (Cv r i j)) in
    Ok {| Uzp := Uzp r; Uth := Uth r; Utot := Utot r; Ent := Ent r; F := F r; Fvib := Fvib r; Cv := Cv r; VT := VT r;
          KT := KT r; Kp := Kp r; H := h; G := g; alphaV := alpha; CpCv := cpcv;
          Cp := (fun i j => Cv r i j + cpcv i j); KS := (fun i j => cp' (ks i j)); gruneisen := gr |}.
End Grid.

(** convert_frequency(self.phonons, self._funit, 'Hz') *)
Definition phonons_Hz : outcome bands :=
  let? cf := conversion (fun f => convert_frequency K f (funit s) "Hz") in
  Ok {| nb := nb (frequencies x); nf := nf (frequencies x); nv := nv (frequencies x);
        freq := fun q b k => cf (freq (frequencies x) q b k) |}.
(** qha.py:438-478. The reader has no attribute acoustic_kieffer, so
    self.acoustic (qha.py:262) raises AttributeError. With neither scheme the
    zeroed dictionary is finalised. *)
Definition run (temperature pressure : list R) : outcome results :=
  let nt := List.length temperature in
  let np := List.length pressure in
  let? ct := conversion (fun t => convert_temperature t (tunit s) "K") in
  let T i := ct (nth i temperature 0) in
  let p j := nth j pressure 0 in
  let '(grid, idx) := fine_grid 5 (5 / 100) in
  let? ph := phonons_Hz in
  if kieffer_on s then Raises "AttributeError"
  else
    let? r := (if String.eqb (qha_scheme s) "td" then run_thermodynamics_interpolation nt np T p grid idx ph false
               else if String.eqb (qha_scheme s) "freq" then run_frequency_interpolation nt np T p grid idx ph
               else Ok (scheme_results zeros zeros zeros zeros zeros zeros zeros zeros zeros zeros)) in
    finalize_run nt np T p r.

(** harmonic.py:186-294 *)
Record ha_results := { ha_Uzp : nat -> R; ha_Uth : mat; ha_Utot : mat; ha_S : mat; ha_F : mat; ha_Fvib : mat; ha_Cv : mat }.
Definition ha_run (temperature : list R) : outcome ha_results :=
  let nt := List.length temperature in
  let? ct := conversion (fun t => convert_temperature t (tunit s) "K") in
  let T i := ct (nth i temperature 0) in
  let? ph := phonons_Hz in
  let? ce := to_eunit in
  let uzp j := ce (zero_point_energy P 1 (fun _ => 0) ph weight 0%nat j) in
  let uth i j := ce (thermal_energy P nt T ph weight i j) in
  let fvib i j := ce (vibrational_free_energy P nt T ph weight i j) in
  Ok {| ha_Uzp := uzp; ha_Uth := uth;
        ha_S := (fun i j => ce (entropy P nt T ph weight i j));
        ha_Cv := (fun i j => ce (isochoric_heat_capacity P nt T ph weight i j));
        ha_Fvib := fvib;
        ha_Utot := internal_energy nt (nvol x) (static_energy x) uzp uth;
        ha_F := free_energy nt (nvol x) (static_energy x) fvib |}.
End Calculator.
