(** Model of the fitting front end of quantas/eosfit/utils/pv_eos.py (EOS.check,
    EOS.fit, the normalize methods) and of the interactive session:
    quantas/eosfit/utils/interactive.py and EoSFitCalculator.run
    (quantas/eosfit/eosfit.py:141-204).
    Not modelled: EOS.guess (np.polyfit; a parameter below), scipy's ODR (a
    parameter below), report_fit (EosReportModel), the text of the prompts. *)
From Coq Require Import Reals Arith ZArith Bool List String.
From Verif Require Import Py PvEosModel.
Import ListNotations.
Open Scope R_scope.

(** pv_eos.py:72-85: a value has a [len] exactly when it is not None. Both
    tests look at [sigmaV]. *)
Definition has_len {A} (x : option A) : bool := match x with Some _ => true | None => false end.
Definition check {A B} (sigmaV : option A) (sigmaP : option B) : nat :=
  ((if has_len sigmaV then 1 else 0) + (if has_len sigmaV then 2 else 0))%nat.

(** scipy's fit_type: 2 is ordinary least squares, 0 explicit ODR. *)
Inductive fit_type := LeastSquares | OrthogonalDistance.

(** What a call of EOS.fit asks of scipy, and the caller's guess afterwards. *)
Record fit_plan {A : Type} := {
  start : list R; free : list nat; job : fit_type;
  used_sigmaV : option A; used_sigmaP : option A;
  plan_order : nat; plan_linear : bool }.
Arguments fit_plan : clear implicits.

(** pv_eos.py:126-135 *)
Definition free_parameters (fixed : option (list nat)) (order : nat) : list nat :=
  match fixed with
  | Some f => f
  | None => if (order =? 2)%nat then [1; 0; 0; 1]%nat
            else if (order =? 3)%nat then [1; 1; 0; 1]%nat else [1; 1; 1; 1]%nat
  end.
(** pv_eos.py:147-148: the list is modified in place. *)
Definition triple_first (linear : bool) (p0 : list R) : list R :=
  match p0 with x :: r => (if linear then x * 3 else x) :: r | [] => [] end.

(** pv_eos.py:88-159. The second component is the caller's [guess] after the
    call ([p0] is that same object when a guess is given). *)
Definition fit {A} (guess_pars : list R) (guess : option (list R)) (sigmaV sigmaP : option A)
    (order : nat) (linear : bool) (fixed : option (list nat)) : fit_plan A * option (list R) :=
  let p0 := triple_first linear (match guess with Some g => g | None => guess_pars end) in
  let c := check sigmaV sigmaP in
  ({| start := p0; free := free_parameters fixed order;
      job := if ((c =? 0) || (c =? 2))%nat%bool then LeastSquares else OrthogonalDistance;
      used_sigmaV := sigmaV; used_sigmaP := sigmaP;
      plan_order := order; plan_linear := linear |},
   match guess with Some _ => Some p0 | None => None end).

(** ** Normalised pressure *)
(** pars = p[:] is a numpy view of the caller's array, so each function
    returns the caller's array after the call. *)
Record normalised := { f_calc : R -> R; NP_calc : R -> R; f_obs : R -> R; NP_obs : R -> R -> R }.

(** pv_eos.py:342-444 ([vref] is V[0]; the error propagation is not modelled) *)
Definition normalize_bm (p : pars) (order : nat) (linear : bool) (vref : R) : pars * normalised :=
  let p := if ((order =? 2)%nat && linear)%bool
           then let p := set_K1 p 4 in set_K2 p (-1 / K0 p * ((3 - K1 p) * (4 - K1 p) + 35 / 9))
           else p in
  let strain v0 V := 1 / 2 * (Rpower (v0 / V) (2 / 3) - 1) in
  let f v0 V := 3 * strain v0 V * Rpower (1 + 2 * strain v0 V) (5 / 2) in
  (fst (birch_murnaghan p 1 order linear false),
   {| f_calc := strain (V0 p); NP_calc := fun V => snd (birch_murnaghan p V order linear false) / f (V0 p) V;
      f_obs := strain vref; NP_obs := fun V P => P / f vref V |}).
(** pv_eos.py:552-650 *)
Definition normalize_ns (p : pars) (order : nat) (linear : bool) (vref : R) : pars * normalised :=
  let p := if ((order =? 2)%nat && linear)%bool
           then let p := set_K1 p 2 in set_K2 p (-1 / K0 p * (1 + (K1 p - 2) + (K1 p - 2) ^ 2))
           else p in
  let strain v0 V := 1 / 3 * ln (v0 / V) in
  let f v0 V := 3 * (v0 / V) * strain v0 V in
  (fst (natural_strain p 1 order linear false),
   {| f_calc := strain (V0 p); NP_calc := fun V => snd (natural_strain p V order linear false) / f (V0 p) V;
      f_obs := strain vref; NP_obs := fun V P => P / f vref V |}).
(** pv_eos.py:743-843 *)
Definition normalize_vinet (p : pars) (order : nat) (linear : bool) (vref : R) : pars * normalised :=
  let p := if ((order =? 2)%nat && linear)%bool then set_K1 p 1 else p in
  let p := if ((order =? 2)%nat && linear)%bool
           then let p := set_K1 p 2 in set_K2 p (-1 / K0 p * (1 + (K1 p - 2) + (K1 p - 2) ^ 2))
           else p in
  let strain v0 V := 1 - Rpower (V / v0) (1 / 3) in
  (p, {| f_calc := strain (V0 p); NP_calc := fun V => K0 p * exp (3 / 2 * (K1 p - 1) * strain (V0 p) V);
         f_obs := strain vref;
         NP_obs := fun V P => P * (1 - strain vref V) ^ 2 / (3 * strain vref V) |}).

(** ** The interactive session *)
(** click.confirm: y/yes/n/no after lower().strip(), the default on an empty
    answer, otherwise an error message and the same question again. *)
Definition confirm_answer (default : bool) (s : string) : option bool :=
  let v := strip (lower s) in
  if mem v ["y"; "yes"]%string then Some true
  else if mem v ["n"; "no"]%string then Some false
  else if (v =? "")%string then Some default
  else None.

(** interactive.py:22-43 *)
Definition EOS_ORDERS (key : string) : option (list nat) :=
  if (key =? "1")%string then Some [3]%nat
  else if (key =? "2")%string then Some [2; 3; 4]%nat
  else if (key =? "3")%string then Some [2; 3; 4]%nat
  else if (key =? "4")%string then Some [2; 3]%nat
  else if (key =? "5")%string then Some [2; 3; 4]%nat
  else None.
Definition EOS_FUNCTIONS (key : string) : option eos_method :=
  if (key =? "1")%string then Some murnaghan
  else if (key =? "2")%string then Some birch_murnaghan
  else if (key =? "3")%string then Some natural_strain
  else if (key =? "4")%string then Some vinet
  else if (key =? "5")%string then Some tait
  else None.
(** interactive.py:45-50 *)
Definition DATA_TYPES : list string := ["v"; "a"; "b"; "c"]%string.

(** interactive.py:176-178: the default order offered for a formulation. *)
Definition default_order (choices : list nat) (default : nat) : nat :=
  if existsb (Nat.eqb default) choices then default else hd default choices.

Section Session.
(** The input data: which of v, a, b, c and which uncertainties are arrays. *)
Variable available : string -> bool.
Variable available_sigma : string -> bool.   (* 'p' and the data keys *)
Variable guess : string -> list R.           (* EOS.guess on the selected data *)
Variable parse_int : string -> option nat.   (* click's int conversion *)
Variable parse_float : string -> option R.   (* click's float conversion *)
Variable round5 : R -> R.                    (* np.round(., 5) *)
(** The fitted parameters scipy returns for a plan. *)
Variable odr : string -> string -> fit_plan string -> list R.

(** eos_defaults *)
Definition defaults := option (string * nat).
(** Local variables once a data set is selected: the key, the current guess
    (None while do_init_guess is true) and the defaults. *)
Record ctx := { c_data : string; c_guess : option (list R); c_defaults : defaults }.
(** ... and once the EoS is selected. *)
Record sel := { s_data : string; s_guess : list R; s_eos : string; s_order : nat }.

(** Program points: each is one question waiting for an answer. *)
Inductive point :=
| AtData (d : defaults)
| AtEos (c : ctx)
| AtOrder (c : ctx) (key : string)
| AtModify (s : sel)
| AtParam (s : sel) (i : nat)
| AtFix (s : sel)
| AtFixOne (s : sel) (acc : list nat)
| AtWeights (s : sel) (fix_ : list nat)
| AtWeightP (s : sel) (fix_ : list nat)
| AtWeightV (s : sel) (fix_ : list nat) (wp : option string)
| AtUpdate (s : sel) (beta : list R)
| AtContinue (s : sel)
| AtChangeEos (s : sel)
| AtOther (d : defaults)
| Done.
Inductive event :=
| Fitted (data key : string) (p : fit_plan string)
| Rejected.

Definition linearized (key : string) : bool := negb (key =? "v")%string.

(** eosfit.py:174-178: the call of eos.fit with the weights chosen; the guess
    list is modified by it. *)
Definition do_fit (s : sel) (fix_ : list nat) (wp wv : option string) : point * list event :=
  let '(p, g') := fit (guess (s_data s)) (Some (s_guess s)) wv wp (s_order s) (linearized (s_data s)) (Some fix_) in
  let s' := {| s_data := s_data s; s_guess := match g' with Some g => g | None => s_guess s end;
               s_eos := s_eos s; s_order := s_order s |} in
  (AtUpdate s' (odr (s_data s) (s_eos s) p), [Fitted (s_data s) (s_eos s) p]).

(** interactive.py:370-372: no question when neither has uncertainties. *)
Definition ask_weights (s : sel) (fix_ : list nat) : point * list event :=
  if (available_sigma "p" || available_sigma (s_data s))%bool then (AtWeights s fix_, [])
  else do_fit s fix_ None None.
Definition ask_weight_v (s : sel) (fix_ : list nat) (wp : option string) : point * list event :=
  if available_sigma (s_data s) then (AtWeightV s fix_ wp, []) else do_fit s fix_ wp None.

Definition yes_no (default : bool) (ans : string) (here : point) (k : bool -> point * list event) : point * list event :=
  match confirm_answer default ans with Some b => k b | None => (here, [Rejected]) end.

Definition eos_default (d : defaults) : string := match d with Some (k, _) => k | None => "1"%string end.
Definition order_default (d : defaults) : nat := match d with Some (_, o) => o | None => 2%nat end.
Definition defaults_of (s : sel) : defaults := Some (s_eos s, s_order s).

Fixpoint set_nth (l : list R) (i : nat) (x : R) : list R :=
  match l, i with
  | [], _ => []
  | _ :: r, O => x :: r
  | y :: r, S i => y :: set_nth r i x
  end.
Definition with_guess (s : sel) (g : list R) : sel :=
  {| s_data := s_data s; s_guess := g; s_eos := s_eos s; s_order := s_order s |}.
(** interactive.py:309-313: the loop over the parameters. *)
Definition next_param (s : sel) (i : nat) : point :=
  if (i <? List.length (s_guess s))%nat then AtParam s i else AtFix s.

(** One answer. eosfit.py:150-199 with interactive.py. *)
Definition step (st : point) (ans : string) : point * list event :=
  match st with
  (* interactive.py:248-259 (choose, no default: an empty answer re-prompts) *)
  | AtData d =>
      if (mem ans DATA_TYPES && available ans)%bool
      then (AtEos {| c_data := ans; c_guess := None; c_defaults := d |}, [])
      else (AtData d, [Rejected])
  (* interactive.py:126-152 *)
  | AtEos c =>
      let sel := if (ans =? "")%string then eos_default (c_defaults c) else ans in
      match EOS_ORDERS sel with
      | Some _ => (AtOrder c sel, [])
      | None => (AtEos c, [Rejected])
      end
  (* interactive.py:155-183, 203-209; eosfit.py:164-166 *)
  | AtOrder c key =>
      match EOS_ORDERS key with
      | None => (st, [Rejected])
      | Some choices =>
          let sel := if (ans =? "")%string then Some (default_order choices (order_default (c_defaults c)))
                     else parse_int ans in
          match sel with
          | Some o =>
              if existsb (Nat.eqb o) choices
              then (AtModify {| s_data := c_data c;
                                s_guess := match c_guess c with Some g => g | None => guess (c_data c) end;
                                s_eos := key; s_order := o |}, [])
              else (st, [Rejected])
          | None => (st, [Rejected])
          end
      end
  (* interactive.py:282-314 *)
  | AtModify s => yes_no false ans st (fun b => (if b then next_param s 0 else AtFix s, []))
  | AtParam s i =>
      let v := if (ans =? "")%string then Some (round5 (nth i (s_guess s) 0)) else parse_float ans in
      match v with
      | Some x => (next_param (with_guess s (set_nth (s_guess s) i x)) (S i), [])
      | None => (st, [Rejected])
      end
  (* interactive.py:317-346 (labels has four entries) *)
  | AtFix s => yes_no false ans st (fun b => if b then (AtFixOne s [], []) else ask_weights s [1; 1; 1; 1]%nat)
  | AtFixOne s acc => yes_no false ans st (fun b =>
      let acc := (acc ++ [(if b then 0 else 1)%nat])%list in
      if (List.length acc <? 4)%nat then (AtFixOne s acc, []) else ask_weights s acc)
  (* interactive.py:349-387 *)
  | AtWeights s fx => yes_no true ans st (fun b =>
      if b then (if available_sigma "p" then (AtWeightP s fx, []) else ask_weight_v s fx None)
      else do_fit s fx None None)
  | AtWeightP s fx => yes_no true ans st (fun b => ask_weight_v s fx (if b then Some "p"%string else None))
  | AtWeightV s fx wp => yes_no true ans st (fun b => do_fit s fx wp (if b then Some (s_data s) else None))
  (* eosfit.py:185-187 *)
  | AtUpdate s beta => yes_no false ans st (fun b => (AtContinue (if b then with_guess s beta else s), []))
  (* eosfit.py:189-197: change_data = not confirm(..) *)
  | AtContinue s => yes_no false ans st (fun b => (if b then AtChangeEos s else AtOther (defaults_of s), []))
  | AtChangeEos s => yes_no false ans st (fun b =>
      (if b then AtEos {| c_data := s_data s; c_guess := Some (s_guess s); c_defaults := defaults_of s |}
       else AtModify s, []))
  (* eosfit.py:199 *)
  | AtOther d => yes_no false ans st (fun b => (if b then AtData d else Done, []))
  | Done => (Done, [])
  end.

(** The session on a list of answers: final point and all events. *)
Fixpoint session (st : point) (answers : list string) : point * list event :=
  match answers with
  | [] => (st, [])
  | a :: r => let '(st', ev) := step st a in let '(st'', ev') := session st' r in (st'', (ev ++ ev')%list)
  end.
End Session.
