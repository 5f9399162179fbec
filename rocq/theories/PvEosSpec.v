(** What it means for a pressure-volume curve to have given reference
    parameters: P(V0) = 0, K = -V dP/dV, K' = dK/dP, K'' = d2K/dP2, all at V0. *)
From Coq Require Import Reals.
From Coquelicot Require Import Coquelicot.
Open Scope R_scope.

(** [K] is the bulk modulus -V dP/dV along the curve near [v0]. *)
Definition bulk_modulus_near (P K : R -> R) (v0 : R) : Prop :=
  locally v0 (fun V => is_derive P V (- K V / V)).
(** [Q'] is dQ/dP along the curve near [v0]:  dQ/dV = Q' dP/dV. *)
Definition pressure_derivative_near (P Q Q' : R -> R) (v0 : R) : Prop :=
  locally v0 (fun V => exists dP, is_derive P V dP /\ is_derive Q V (Q' V * dP)).

Definition reference_state (P : R -> R) (v0 k0 k1 k2 : R) : Prop :=
  P v0 = 0 /\
  exists K K' K'' : R -> R,
    bulk_modulus_near P K v0 /\
    pressure_derivative_near P K K' v0 /\
    pressure_derivative_near P K' K'' v0 /\
    K v0 = k0 /\ K' v0 = k1 /\ K'' v0 = k2.
