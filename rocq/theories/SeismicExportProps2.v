(** C107: the chain `quantas seismic` then `quantas export seismic`, from the file of
    moduli to the tables. *)
From Coq Require Import Reals String Ascii List Bool Arith ZArith Lia Lra.
From Verif Require SoecIOModel CliModel CitationsModel QhaRunModel SeismicModel SeismicProps SeismicIsoProps SeismicTableModel SeismicTableProps.
From Verif Require Import Py DecimalModel FormatModel FormatProofs YamlSpec TableModel TableProofs TableProps SoecTableModel SoecTableProofs SoecTableProps
  SymmetryModel TensorModel TensorProps AverageProps SoecReportProps SoecCommandProps SeismicNodeProofs.
From Verif Require Import ExportCommandProps ExportCommandProps2 ExportScreenProps.
From Verif Require SeismicCommandModel SeismicCommandProps SeismicExportModel SeismicExportProps.
Import ListNotations.
Open Scope string_scope.
Open Scope list_scope.
Open Scope nat_scope.
Import SeismicCommandProps(azimuths_of, ready, proper_sphere).
Import SeismicExportProps(offers, result_of, complete).
Import SeismicTableProps(heading_of, each_rounded, decimals, is_seismic_table).

Section Chain.
Variable inverse : mat6 -> option mat6.
Variable eigh : SeismicModel.mat3 -> (nat -> R) * SeismicModel.mat3.
Variables pinv inv : SeismicModel.mat3 -> SeismicModel.mat3.
Variables (time_line : string) (float_text : R -> string) (encode : h5 -> string).
Variable nan_case : SoecIOModel.data -> CliModel.method (string + CliModel.job).
Variables (ntheta nphi : Z) (f : string) (o : option string) (silent d : bool) (a : CliModel.result bool) (w : CliModel.world).
Notation out := (CliModel.outpath (CliModel.seismic_command "") f o).
Notation run_command := (SeismicCommandModel.seismic_main inverse eigh pinv inv time_line float_text encode nan_case ntheta nphi "GPa" f o silent d a w).
Variables (text name : string) (c : mat6) (rho : R) (Sm : mat6).
Notation nt := (Z.to_nat ntheta).
Notation np := (Z.to_nat (azimuths_of ntheta nphi)).
Notation theta t := (PI / 2 * (INR t / (INR nt - 1)))%R.
Notation phi p := (2 * PI * (INR p / (INR np - 1)))%R.
(** A line of fourteen numbers of the wave in a node. *)
Definition wave_line (i t p : nat) (u : vec) (v : R) (line : string) : Prop :=
  exists l, wave_row c Sm rho (theta t) (phi p) i u v l /\ shows line (each_rounded decimals l).

(** The export of a run offers the three waves. Each table written in a session has a
    heading which names the wave, and one line for each node of the half sphere in the
    order of the two loops. The lines of a node in the three tables are, rounded to the
    decimals of their columns, three waves of the crystal along the direction of the
    node, slowest first, with orthogonal displacements. *)
Theorem C107_waves : ready inverse ntheta nphi "GPa" f o a w text name c rho Sm -> proper_sphere ntheta nphi -> positive_definite c -> inverse6 c Sm -> (0 < rho)%R ->
  (forall t p, t < nt -> p < np -> SeismicIsoProps.solves eigh (SeismicModel.christoffel (SeismicModel.Cmat c rho) (vector (theta t) (phi p)))) ->
  exists v h, run_command = (CliModel.Ok tt, v) /\ CliModel.fs v out = CliModel.File (encode h) /\
  forall decode complaint, decode (encode h) = Some h -> exists texts slow fast prim,
    lines (texts "ssecondary") = heading_of "  - slow secondary data (ssecondary)" ++ [""; ""] ++ slow ++ [""] /\
    lines (texts "fsecondary") = heading_of "  - fast secondary data (fsecondary)" ++ [""; ""] ++ fast ++ [""] /\
    lines (texts "primary") = heading_of "  - primary data (primary)" ++ [""; ""] ++ prim ++ [""] /\
    List.length slow = nt * np /\ List.length fast = nt * np /\ List.length prim = nt * np /\
    (forall t p, t < nt -> p < np -> exists u0 u1 u2 v0 v1 v2,
      wave_line 0 t p u0 v0 (nth (t * np + p) slow "") /\ wave_line 1 t p u1 v1 (nth (t * np + p) fast "") /\ wave_line 2 t p u2 v2 (nth (t * np + p) prim "") /\
      orthonormal3 u0 u1 u2 /\ (v0 <= v1 <= v2)%R) /\
    forall typed later, session texts ["ssecondary"; "fsecondary"; "primary"] out (CliModel.fs v) typed later ->
      exists v' said, SeismicExportModel.export_main decode complaint out typed v = (CliModel.Ok tt, v') /\ CliModel.fs v' = later /\
        conversation texts out (CliModel.fs v) typed said /\ CliModel.screen v' = CliModel.screen v ++ greeting (SeismicTableModel.seismic_info "GPa") ++ said ++ farewell.
Proof.
  intros H PS PD IV D SO.
  destruct (SeismicCommandProps.C106_log inverse eigh pinv inv time_line float_text encode nan_case ntheta nphi "GPa" f o silent d a w text name c rho Sm H PS) as (Ok_ & _).
  destruct (SeismicCommandProps.C106_saved inverse eigh pinv inv time_line float_text encode nan_case ntheta nphi "GPa" f o silent d a w text name c rho Sm H PS PD IV D SO) as (slow & fast & prim & Sv & L0 & L1 & L2 & V).
  assert (NP : 0 < np) by (destruct PS; lia).
  assert (Full : forall m, List.length m = nt * np -> (forall t p, t < nt -> p < np -> List.length (nth (t * np + p) m []) = 14) -> complete m).
  { intros m L G. apply Forall_forall. intros r I. apply (In_nth _ _ []) in I as (k & Hk & <-). rewrite L in Hk.
    pose proof (Nat.div_mod k np ltac:(lia)) as Q. pose proof (Nat.mod_upper_bound k np ltac:(lia)) as B.
    replace k with (k / np * np + k mod np) by lia. apply G; [|exact B]. apply Nat.div_lt_upper_bound; lia. }
  assert (F14 : forall t p i u v l, wave_row c Sm rho (theta t) (phi p) i u v l -> List.length l = 14) by (intros t p i u v l (_ & x & g & s & psi & A & _ & _ & _ & _ & _ & _ & _ & _ & ->); reflexivity).
  exists (snd run_command), (result_of slow fast prim). split; [rewrite <- Ok_; apply surjective_pairing|]. split; [exact Sv|]. intros decode complaint De.
  destruct (SeismicExportProps.C107_session decode complaint out (snd run_command) (encode (result_of slow fast prim)) slow fast prim Sv De) as (texts & T & S0).
  - apply Full; [exact L0|]. intros t p Ht Hp. destruct (V t p Ht Hp) as (u0 & u1 & u2 & v0 & v1 & v2 & W0 & W1 & W2 & _). exact (F14 _ _ _ _ _ _ W0).
  - apply Full; [exact L1|]. intros t p Ht Hp. destruct (V t p Ht Hp) as (u0 & u1 & u2 & v0 & v1 & v2 & W0 & W1 & W2 & _). exact (F14 _ _ _ _ _ _ W1).
  - apply Full; [exact L2|]. intros t p Ht Hp. destruct (V t p Ht Hp) as (u0 & u1 & u2 & v0 & v1 & v2 & W0 & W1 & W2 & _). exact (F14 _ _ _ _ _ _ W2).
  - destruct (T "ssecondary" 0 _ slow ltac:(cbn; left; reflexivity) eq_refl) as (b0 & E0 & M0 & Q0).
    destruct (T "fsecondary" 1 _ fast ltac:(cbn; right; left; reflexivity) eq_refl) as (b1 & E1 & M1 & Q1).
    destruct (T "primary" 2 _ prim ltac:(cbn; right; right; left; reflexivity) eq_refl) as (b2 & E2 & M2 & Q2).
    exists texts, b0, b1, b2. do 3 (split; [assumption|]). split; [congruence|]. split; [congruence|]. split; [congruence|]. split; [|exact S0].
    intros t p Ht Hp. assert (B : t * np + p < nt * np) by (apply Nat.lt_le_trans with (S t * np); [cbn; lia|apply Nat.mul_le_mono_r; lia]).
    destruct (V t p Ht Hp) as (u0 & u1 & u2 & v0 & v1 & v2 & W0 & W1 & W2 & O & Le).
    exists u0, u1, u2, v0, v1, v2. split; [|split; [|split; [|split; [exact O|exact Le]]]]; eexists; (split; [eassumption|]).
    + apply Q0. rewrite L0. exact B.
    + apply Q1. rewrite L1. exact B.
    + apply Q2. rewrite L2. exact B.
Qed.
End Chain.

(** * Concrete cases *)
Import SeismicExportModel.
Import SeismicExportProps.
(** A result file with a single node, on a disk where the first name is taken. *)
Definition row14 (x : R) : list R := repeat x 14.
Definition one_node : h5 := result_of [row14 1] [row14 2] [row14 3].
Definition shelf : CliModel.world :=
  {| CliModel.fs := fun p => if String.eqb p "run_SEISMIC.hdf5" then CliModel.File "h5" else if String.eqb p "run_SEISMIC_primary.dat" then CliModel.File "mine" else
       if String.eqb p "there" then CliModel.Dir else CliModel.Absent; CliModel.screen := [] |}.
Notation export typed := (export_main (fun _ => Some one_node) (fun _ _ => "no such choice") "run_SEISMIC.hdf5" typed shelf).
Example C107_instance : exists v text text', export ["ssecondary"; "y"; "primary"; "n"; "other.dat"; "n"] = (CliModel.Ok tt, v) /\
  CliModel.fs v "run_SEISMIC_ssecondary.dat" = CliModel.File text /\ is_seismic_table text (heading_of "  - slow secondary data (ssecondary)") [row14 1] /\
  CliModel.fs v "other.dat" = CliModel.File text' /\ is_seismic_table text' (heading_of "  - primary data (primary)") [row14 3] /\
  CliModel.fs v "run_SEISMIC_primary.dat" = CliModel.File "mine".
Proof.
  assert (C : forall x, complete [row14 x]) by (intros x; constructor; [reflexivity|constructor]).
  destruct (C107_session (fun _ => Some one_node) (fun _ _ => "no such choice") "run_SEISMIC.hdf5" shelf "h5" [row14 1] [row14 2] [row14 3] eq_refl eq_refl (C _) (C _) (C _)) as (texts & T & S0).
  destruct (S0 ["ssecondary"; "y"; "primary"; "n"; "other.dat"; "n"]
    (CliModel.update (CliModel.update (CliModel.fs shelf) "run_SEISMIC_ssecondary.dat" (CliModel.File (texts "ssecondary"))) "other.dat" (CliModel.File (texts "primary")))) as (v & said & E & Fv & _).
  { apply (goes_on _ _ _ _ ["ssecondary"] "ssecondary" "run_SEISMIC_ssecondary.dat" "y" ["primary"; "n"; "other.dat"; "n"]).
    - cbn. tauto.
    - now apply (as_offered "run_SEISMIC.hdf5" (CliModel.fs shelf) "ssecondary").
    - cbn. tauto.
    - apply (stops _ _ _ _ ["primary"; "n"; "other.dat"] "primary" "other.dat" "n").
      + cbn. tauto.
      + apply elsewhere; [discriminate|cbn; tauto|discriminate|discriminate].
      + cbn. tauto. }
  exists v, (texts "ssecondary"), (texts "primary"). rewrite Fv. split; [exact E|]. split; [reflexivity|]. split; [apply (T "ssecondary" 0); [cbn; tauto|reflexivity]|].
  split; [reflexivity|]. split; [apply (T "primary" 2); [cbn; tauto|reflexivity]|reflexivity].
Qed.
(** A dataset primary alone, or of short rows, or a vector; a short info text. *)
Definition odd (about : string) (d : array) : string -> option h5 := fun _ => Some {| info := Some about; datasets := [("primary", {| values := d; unit_of := "" |})] |}.
Example C107_endings : let about := SeismicTableModel.seismic_info "GPa" in
  let run about d typed := fst (export_main (odd about d) (fun _ _ => "") "run_SEISMIC.hdf5" typed shelf) in
  run about (Mat []) ["ssecondary"] = CliModel.Raises "UnboundLocalError" /\ run about (Vec []) ["primary"; "y"] = CliModel.Raises "ValueError" /\
  run about (Mat [[]]) ["primary"; "y"] = CliModel.Raises "IndexError" /\ run "short" (Mat []) ["primary"; "y"] = CliModel.Raises "IndexError" /\
  run about (Mat []) ["primary"; "n"; "there"] = CliModel.Raises "IsADirectoryError" /\ run about (Mat []) ["primary"] = CliModel.Raises "Abort".
Proof. repeat split; vm_compute; reflexivity. Qed.
Example C107_stale_instance : exists v text,
  export_main (odd (SeismicTableModel.seismic_info "GPa") (Mat [row14 3])) (fun _ _ => "") "waves.hdf5" ["primary"; "y"; "ssecondary"; "n"]
    {| CliModel.fs := fun p => if String.eqb p "waves.hdf5" then CliModel.File "h5" else CliModel.Absent; CliModel.screen := [] |} = (CliModel.Ok tt, v) /\
  CliModel.fs v "waves_ssecondary.dat" = CliModel.File text /\ is_seismic_table text (heading_of "  - slow secondary data (ssecondary)") [row14 3].
Proof.
  eapply C107_stale_refuted; [reflexivity|reflexivity| | |discriminate|reflexivity|reflexivity].
  - constructor; [reflexivity|constructor].
  - cbn. left. reflexivity.
Qed.
(** The chain for the glass of C106 on two by two nodes. *)
Example C107_glass : exists v h, SeismicCommandModel.seismic_main (only glass (isotropic_S 5 3)) SeismicCommandProps.axes (fun A => A) (fun A => A) "Calculation time: 1.0 s" (fun _ => "2500.0") (fun h => "h5")
    (fun _ => ([], CliModel.Raises "")) 2 2 "GPa" "run/glass.dat" None true false (CliModel.Ok false) (disk glass_upper) = (CliModel.Ok tt, v) /\
  exists texts body u u1 u2 c0 c1 c2, lines (texts "ssecondary") = heading_of "  - slow secondary data (ssecondary)" ++ [""; ""] ++ body ++ [""] /\ List.length body = 4 /\
  wave_line 2 2 glass 2500 (isotropic_S 5 3) 0 1 0 u c0 (nth 2 body "") /\ orthonormal3 u u1 u2 /\ (c0 <= c1 <= c2)%R /\
  exists v' , export_main (fun _ => Some h) (fun _ _ => "") "run/glass_SEISMIC.hdf5" ["ssecondary"; "n"] v = (CliModel.Ok tt, v') /\
    CliModel.fs v' "run/glass_SEISMIC_ssecondary.dat" = CliModel.File (texts "ssecondary").
Proof.
  destruct glass_described as (D1 & _). pose proof (SeismicCommandProps.glass_ready22 2 2 _ D1) as R1. destruct glass_facts as (Y & Z & I & P & E).
  assert (PS : proper_sphere 2 2) by (split; unfold azimuths_of; cbn; lia).
  destruct (C107_waves _ SeismicCommandProps.axes (fun A => A) (fun A => A) "Calculation time: 1.0 s" (fun _ => "2500.0") (fun h => "h5") (fun _ => ([], CliModel.Raises ""))
    2 2 _ _ true false _ _ _ _ _ _ _ R1 PS P I ltac:(lra) SeismicCommandProps.glass_corners) as (v & h & Ev & Sv & Q).
  exists v, h. split; [exact Ev|]. destruct (Q (fun _ => Some h) (fun _ _ => "") eq_refl) as (texts & slow & fast & prim & L0 & _ & _ & N0 & _ & _ & W & S0).
  destruct (W 1 0 ltac:(cbn; lia) ltac:(cbn; lia)) as (u0 & u1 & u2 & v0 & v1 & v2 & W0 & _ & _ & O & Le).
  exists texts, slow, u0, u1, u2, v0, v1, v2. split; [exact L0|]. split; [exact N0|]. split; [exact W0|]. split; [exact O|]. split; [exact Le|].
  destruct (S0 ["ssecondary"; "n"] (CliModel.update (CliModel.fs v) "run/glass_SEISMIC_ssecondary.dat" (CliModel.File (texts "ssecondary")))) as (v' & said & E' & F' & _).
  { apply (stops _ _ _ _ ["ssecondary"] "ssecondary" "run/glass_SEISMIC_ssecondary.dat" "n"); [cbn; tauto| |cbn; tauto].
    apply (as_offered "run/glass_SEISMIC.hdf5" (CliModel.fs v) "ssecondary").
    pose proof (SeismicCommandProps.C106_kept _ SeismicCommandProps.axes (fun A => A) (fun A => A) "Calculation time: 1.0 s" (fun _ => "2500.0") (fun h => "h5") (fun _ => ([], CliModel.Raises ""))
      _ _ _ _ _ true false _ _ _ _ _ _ _ R1 PS "run/glass_SEISMIC_ssecondary.dat") as K. rewrite Ev in K. cbn [snd] in K.
    transitivity (CliModel.fs (disk glass_upper) "run/glass_SEISMIC_ssecondary.dat"); [|reflexivity]. apply K; vm_compute; discriminate. }
  exists v'. split; [exact E'|]. rewrite F'. unfold CliModel.update. now rewrite String.eqb_refl.
Qed.

Print Assumptions C107_waves.
