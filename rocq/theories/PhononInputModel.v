(** What the (quasi-)harmonic calculators take from an input document.
    - /repo/quantas/IO/qha_reader.py:119-121 (kpoints), 135-164 (the other properties, QhaReaderModel)
    - /repo/quantas/harmonic/harmonic.py:161-182, 220-230; /repo/quantas/qha/qha.py:346-370, 444-460
    Numbers are exact reals; documents with 'nan' among their numbers, or whose
    weights sum to zero, are set apart. *)
From Coq Require Import Reals String Ascii List Bool Arith ZArith.
From Flocq Require Import Core.
From Verif Require Import Py DecimalModel.
From Verif Require StatMechModel QhaReaderModel QhaRunModel CliModel.
Import ListNotations.
Open Scope string_scope.
Open Scope list_scope.
Open Scope nat_scope.
Notation "'let!' x := a 'in' b" := (QhaReaderModel.bind a (fun x => b)) (at level 200, x name).

(** A YAML number *)
Definition number (y : QhaReaderModel.yaml) : option R := match y with QhaReaderModel.YInt z => Some (IZR z) | QhaReaderModel.YNum x => Some x | _ => None end.
Definition three_numbers (y : QhaReaderModel.yaml) : option (R * R * R) :=
  match y with
  | QhaReaderModel.YList [a; b; c] => match number a, number b, number c with Some a, Some b, Some c => Some (a, b, c) | _, _, _ => None end
  | _ => None
  end.
(** np.linalg.det of three rows of three *)
Definition det3 (r1 r2 r3 : R * R * R) : R :=
  let '(a, b, c) := r1 in let '(d, e, f) := r2 in let '(g, h, i) := r3 in
  (a * (e * i - f * h) - b * (d * i - f * g) + c * (d * h - e * g))%R.
(** qha_reader.py:119-121; supercells of another shape are outside the model *)
Definition kpoints (y : QhaReaderModel.yaml) : QhaReaderModel.outcome Z :=
  let! c := QhaReaderModel.get "supercell" y in
  match c with
  | QhaReaderModel.YList [r1; r2; r3] =>
      match three_numbers r1, three_numbers r2, three_numbers r3 with
      | Some a, Some b, Some c => QhaReaderModel.Ok (ZnearestE (det3 a b c))
      | _, _, _ => QhaReaderModel.Raises "unmodelled"
      end
  | _ => QhaReaderModel.Raises "unmodelled"
  end.

(** array[k] on np.float64 or a one-dimensional array *)
Definition index (v : QhaReaderModel.num) (k : nat) : QhaReaderModel.outcome fl :=
  match v with
  | QhaReaderModel.Scalar _ => QhaReaderModel.Raises "IndexError"
  | QhaReaderModel.Array l => match nth_error l k with Some x => QhaReaderModel.Ok x | None => QhaReaderModel.Raises "IndexError" end
  end.
Definition is_num (x : fl) : bool := match x with Num _ => true | NaN => false end.
Definition val (x : fl) : R := match x with Num v => v | NaN => 0%R end.
Definition items (v : QhaReaderModel.num) : list fl := match v with QhaReaderModel.Scalar x => [x] | QhaReaderModel.Array l => l end.

(** Everything the run reads, in the order in which it is read; None: not all are
    numbers, or the weights cannot be normalised. *)
Definition phonon_input (y : QhaReaderModel.yaml) : QhaReaderModel.outcome (option QhaRunModel.input) :=
  let! w := QhaReaderModel.weights y in
  let! t := QhaReaderModel.total_q_points y in
  let! m := QhaReaderModel.frequencies y in
  let! nq := QhaReaderModel.qpoints y in
  let! na := QhaReaderModel.natoms y in
  let! nv := QhaReaderModel.nvol y in
  let! v := QhaReaderModel.volume y in
  let! e := QhaReaderModel.energy y in
  let fine :=
    forallb is_num (items v) && forallb is_num (items e) && forallb (fun q => is_num (w q)) (seq 0 nq) &&
    forallb (fun q => forallb (fun b => forallb (fun k => is_num (m q b k)) (seq 0 nv)) (seq 0 (na * 3))) (seq 0 nq) &&
    match t with Num x => if Req_EM_T x 0 then false else true | NaN => false end in
  QhaReaderModel.Ok (if fine then Some
    {| QhaRunModel.nvol := nv; QhaRunModel.volume := (fun k => val (nth k (items v) (Num 0))); QhaRunModel.static_energy := (fun k => val (nth k (items e) (Num 0)));
       QhaRunModel.frequencies := {| StatMechModel.nb := nq; StatMechModel.nf := na * 3; StatMechModel.nv := nv; StatMechModel.freq := (fun q b k => val (m q b k)) |};
       QhaRunModel.weights := (fun q => val (w q)); QhaRunModel.total_q_points := val t |}
  else None).

(** A method which prints lines, each computed when it is printed. *)
Fixpoint printing (l : list (QhaReaderModel.outcome string)) : CliModel.method unit :=
  match l with
  | [] => ([], CliModel.Ok tt)
  | QhaReaderModel.Ok s :: r => (CliModel.Say s :: fst (printing r), snd (printing r))
  | QhaReaderModel.Raises e :: _ => ([], CliModel.Raises e)
  end.
