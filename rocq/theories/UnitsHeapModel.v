(** Effect of the converters of quantas/utils/physics/units.py on numpy arrays.
    A heap is a list of arrays (dtype, elements); a reference is a position.
    Simplifications: arrays are one-dimensional and own their buffer;
    integers are embedded in R. *)
From Coq Require Import String List Reals Bool.
From Verif Require Import Py UnitsModel.
Import ListNotations.
Open Scope string_scope.
Open Scope list_scope.
Open Scope R_scope.

Inductive dtype := DFloat | DInt.
Record array := { dt : dtype; elems : list R }.
Definition heap := list array.
Definition ref := nat.

(** What the caller passes: an existing ndarray, or a Python sequence (from
    which numpy builds a new array, of integer type iff all items are ints). *)
Inductive arg := Nd (r : ref) | Seq (a : array).

Inductive outcome := Ret (r : ref) | Unsupported | CastError | BadRef.

Definition alloc (h : heap) (a : array) : heap * ref := (h ++ [a], length h).
Fixpoint store (h : heap) (r : ref) (a : array) : heap :=
  match h, r with
  | [], _ => []
  | _ :: t, O => a :: t
  | x :: t, S r => x :: store t r a
  end.

(** np.asarray / np.asanyarray: the object itself for an ndarray, a new array
    for a sequence. *)
Definition asarray (h : heap) (v : arg) : heap * ref :=
  match v with Nd r => (h, r) | Seq a => alloc h a end.

(** Out-of-place element-wise arithmetic allocates a float array. *)
Definition arith (f : R -> R) (h : heap) (r : ref) : option (heap * ref) :=
  match nth_error h r with
  | None => None
  | Some a => Some (alloc h {| dt := DFloat; elems := map f (elems a) |})
  end.

(** [res *= f] / [res /= f] with a Python float: in place on a float array,
    UFuncTypeError (nothing written) on an integer array. *)
Definition inplace (u : scaling) (h : heap) (r : ref) : option (heap * bool) :=
  match nth_error h r with
  | None => None
  | Some a =>
      match dt a with
      | DInt => Some (h, false)
      | DFloat => Some (store h r {| dt := DFloat; elems := map (apply_scaling u) (elems a) |}, true)
      end
  end.

(** The body of energy_to_pressure / pressure_to_energy: units.py:314-353, 409-448 *)
Fixpoint run_inplace (l : list (option scaling)) (h : heap) (r : ref) : heap * outcome :=
  match l with
  | [] => (h, Ret r)
  | None :: _ => (h, Unsupported)
  | Some u :: t =>
      match inplace u h r with
      | None => (h, BadRef)
      | Some (h', true) => run_inplace t h' r
      | Some (h', false) => (h', CastError)
      end
  end.

Section K.
Variable K : constants.

Definition energy_to_pressure_h (h : heap) (v : arg) (es vs ps : string) : heap * outcome :=
  let (h1, r) := asarray h v in run_inplace (e2p_steps K es vs ps) h1 r.
Definition pressure_to_energy_h (h : heap) (v : arg) (es vs ps : string) : heap * outcome :=
  let (h1, r) := asarray h v in run_inplace (p2e_steps K es vs ps) h1 r.

(** One half of a convert_*: for the base unit the array object itself is
    passed on, for the others a new array is computed, unknown names raise. *)
Definition half (base : list string) (f : R -> string -> option R)
           (h : heap) (r : ref) (s : string) : heap * outcome :=
  if mem (lower s) base then (h, Ret r)
  else match f 0 s with
       | None => (h, Unsupported)
       | Some _ =>
           match arith (fun x => match f x s with Some y => y | None => 0 end) h r with
           | None => (h, BadRef)
           | Some (h', r') => (h', Ret r')
           end
       end.

Definition convert_h (base : list string) (to from : R -> string -> option R)
           (h : heap) (v : arg) (old new : string) : heap * outcome :=
  let (h1, r) := asarray h v in
  match half base to h1 r old with
  | (h2, Ret r2) => half base from h2 r2 new
  | other => other
  end.

(** units.py:50-115, 117-177, 180-257, 451-506, 508-559, 561-613 *)
Definition convert_temperature_h := convert_h ["kelvin"; "k"] to_kelvin from_kelvin.
Definition convert_energy_h := convert_h ["Hartree"; "Ha"; "ha"] (to_hartree K) (from_hartree K).
Definition convert_pressure_h := convert_h ["pa"] to_pascal from_pascal.
Definition convert_frequency_h := convert_h ["cm^-1"] (to_wavenumber K) (from_wavenumber K).
Definition convert_lenght_h := convert_h ["metre"; "m"] (to_metre K) (from_metre K).
Definition convert_volume_h := convert_h ["metre"; "m"] (to_metre3 K) (from_metre3 K).
End K.
