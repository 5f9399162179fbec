(** Inputs generated from phonopy outputs: C80. *)
From Coq Require Import Reals String Ascii List Bool Arith ZArith Lia Lra.
From Flocq Require Import Core.
From Verif Require Import Py DecimalModel ChemModel UnitsModel UnitsProps QhaReaderModel FormatModel QhaWriterModel YamlSpec QhaWriterProofs QhaWriterProps PhonopyModel.
Import ListNotations.
Open Scope string_scope.
Open Scope list_scope.
Open Scope nat_scope.

(** ** What phonopy and VASP write *)
Definition is_number (y : yaml) (x : R) : Prop := y = YNum x \/ exists z, y = YInt z /\ x = IZR z.
Definition is_triple (y : yaml) (v : three_reals) : Prop :=
  exists a b c, y = YList [a; b; c] /\ is_number a (fst (fst v)) /\ is_number b (snd (fst v)) /\ is_number c (snd v).
Definition is_matrix (y : yaml) (m : three_reals * three_reals * three_reals) : Prop :=
  exists a b c, y = YList [a; b; c] /\ is_triple a (fst (fst m)) /\ is_triple b (snd (fst m)) /\ is_triple c (snd m).
(** An atom: chemical symbol, atomic number, fractional coordinates *)
Definition is_atom (y : yaml) (a : string * Z * three_reals) : Prop :=
  get "symbol" y = Ok (YStr (fst (fst a))) /\ symbol2number (fst (fst a)) = Some (snd (fst a)) /\
  exists c, get "coordinates" y = Ok c /\ is_triple c (snd a).
Definition is_mode (y : yaml) (f : R) : Prop := exists v, get "frequency" y = Ok v /\ is_number v f.
(** A q-point: coordinates, weight, frequencies in THz *)
Definition is_q (na : nat) (y : yaml) (q : three_reals * R * list R) : Prop :=
  (exists p, get "q-position" y = Ok p /\ is_triple p (fst (fst q))) /\ (exists w, get "weight" y = Ok w /\ is_number w (snd (fst q))) /\
  (exists bs, get "band" y = Ok (YList bs) /\ Forall2 is_mode bs (snd q) /\ List.length (snd q) = 3 * na).
Record mesh := {
  m_lattice : three_reals * three_reals * three_reals; m_atoms : list (string * Z * three_reals); m_qs : list (three_reals * R * list R) }.
Definition m_natom (m : mesh) : nat := List.length (m_atoms m).
Definition m_nq (m : mesh) : nat := List.length (m_qs m).
Definition is_mesh (y : yaml) (m : mesh) : Prop :=
  get "natom" y = Ok (YInt (Z.of_nat (m_natom m))) /\ (exists l, get "lattice" y = Ok l /\ is_matrix l (m_lattice m)) /\
  (exists ps, get "points" y = Ok (YList ps) /\ Forall2 is_atom ps (m_atoms m)) /\
  get "nqpoint" y = Ok (YInt (Z.of_nat (m_nq m))) /\ (exists qs, get "phonon" y = Ok (YList qs) /\ Forall2 (is_q (m_natom m)) qs (m_qs m)).
Definition is_displacements (y : yaml) (dim : three_reals * three_reals * three_reals) : Prop :=
  (exists d, get "supercell_matrix" y = Ok d /\ is_matrix d dim) /\
  exists s lat l atoms ps, get "supercell" y = Ok s /\ get "lattice" s = Ok lat /\ is_matrix lat l /\ get "points" s = Ok (YList ps) /\ Forall2 is_atom ps atoms.
(** The energy of the last ionic step *)
Definition is_energy (x : xml) (e : R) : Prop :=
  exists before t after, x = Energies (before ++ (Some "e_wo_entrp", t) :: after) /\
  Forall (fun p => exists n, fst p = Some n /\ (n = "e_wo_entrp" -> exists v, parse_float (strip (snd p)) = Some (Num v))) before /\
  parse_float (strip t) = Some (Num e) /\
  Forall (fun p => exists n, fst p = Some n /\ n <> "e_wo_entrp") after.
(** Volume of the cell spanned by three vectors, positive for right-handed ones *)
Definition triple_product (m : three_reals * three_reals * three_reals) : R :=
  let '((a1, a2, a3), (b1, b2, b3), (c1, c2, c3)) := m in
  ((b2 * c3 - b3 * c2) * a1 + (b3 * c1 - b1 * c3) * a2 + (b1 * c2 - b2 * c1) * a3)%R.
(** A path: directory, base name, extension *)
Fixpoint has (c : ascii) (s : string) : Prop := match s with EmptyString => False | String a r => a = c \/ has c r end.
Definition path (dir base ext : string) : Prop :=
  ~ has "/" base /\ (exists a, has a base /\ a <> "."%char) /\ ~ has "." ext /\ ~ has "/" ext /\ (dir = "" \/ exists d, dir = d +++ "/").
(** The name without its extension; dots of directories do not count. *)
Definition stem (f r : string) : Prop :=
  (exists dir base ext, path dir base ext /\ f = dir +++ base +++ "." +++ ext /\ r = dir +++ base) \/
  (exists dir base, ~ has "/" base /\ ~ has "." base /\ (dir = "" \/ exists d, dir = d +++ "/") /\ f = dir +++ base /\ r = f).

(** ** File names *)
Lemma rfind_none c s : ~ has c s -> rfind c s = None.
Proof.
  induction s as [|a r IH]; cbn [rfind has]; intros H; [reflexivity|]. rewrite IH by tauto. destruct (Ascii.eqb_spec a c); [exfalso; auto|reflexivity].
Qed.
Lemma rfind_app c u v : rfind c (u +++ v) = match rfind c v with Some i => Some (String.length u + i) | None => rfind c u end.
Proof.
  induction u as [|a r IH]; cbn [rfind String.append String.length]; [destruct (rfind c v); reflexivity|]. rewrite IH. destruct (rfind c v); [reflexivity|]. reflexivity.
Qed.
Lemma substring_app u v : substring 0 (String.length u) (u +++ v) = u.
Proof. induction u as [|a r IH]; cbn; [destruct v; reflexivity|]. now rewrite IH. Qed.
Lemma substring_skip u v n : substring (String.length u) n (u +++ v) = substring 0 n v.
Proof. induction u as [|a r IH]; cbn; [reflexivity|exact IH]. Qed.
Lemma append_assoc3 a b c : a +++ (b +++ c) = (a +++ b) +++ c.
Proof. induction a; cbn; [reflexivity|now rewrite IHa]. Qed.
Lemma length_append u v : String.length (u +++ v) = String.length u + String.length v.
Proof. induction u; cbn; [reflexivity|now rewrite IHu]. Qed.
Lemma only_dots_false s : (exists a, has a s /\ a <> "."%char) -> only_dots s = false.
Proof.
  intros (a & H & N). induction s as [|b r IH]; [destruct H|]. cbn [only_dots has] in *. destruct H as [<-|H].
  - destruct (Ascii.eqb_spec b "."); [congruence|reflexivity].
  - rewrite (IH H). apply andb_false_r.
Qed.
Lemma root_path dir base ext : path dir base ext -> root_of (dir +++ base +++ "." +++ ext) = dir +++ base.
Proof.
  intros (NB & DB & ND & NS & DD). unfold root_of.
  assert (RD : rfind "." (dir +++ base +++ "." +++ ext) = Some (String.length dir + String.length base)).
  { rewrite (append_assoc3 dir base), rfind_app. change ("." +++ ext) with (String "." ext). cbn [rfind]. rewrite (rfind_none _ _ ND).
    change (Ascii.eqb "." ".") with true. cbn match. rewrite length_append. f_equal. lia. }
  assert (RS : match rfind "/" (dir +++ base +++ "." +++ ext) with Some i => S i | None => 0 end = String.length dir).
  { rewrite rfind_app, rfind_app. change ("." +++ ext) with (String "." ext). cbn [rfind]. rewrite (rfind_none _ _ NS). change (Ascii.eqb "." "/") with false. cbn match.
    rewrite (rfind_none _ _ NB). destruct DD as [->|(d & ->)]; [reflexivity|]. rewrite rfind_app, length_append. cbn. lia. }
  rewrite RD, RS. replace (String.length dir + String.length base - String.length dir) with (String.length base) by lia.
  rewrite substring_skip, substring_app, (only_dots_false _ DB). cbn [negb].
  destruct (Nat.leb_spec (String.length dir) (String.length dir + String.length base)); [|lia]. cbn [andb].
  rewrite append_assoc3, <- length_append. apply substring_app.
Qed.
Lemma rfind_lt c s i : rfind c s = Some i -> i < String.length s.
Proof.
  revert i. induction s as [|a r IH]; cbn [rfind String.length]; intros i; [discriminate|].
  destruct (rfind c r) as [j|]; [intros [= <-]; specialize (IH j eq_refl); lia|]. destruct (Ascii.eqb a c); [intros [= <-]; lia|discriminate].
Qed.
Lemma stem_root f r : stem f r -> root_of f = r.
Proof.
  intros [(dir & base & ext & P & -> & ->)|(dir & base & NS & ND & DD & -> & ->)]; [now apply root_path|].
  unfold root_of. rewrite !rfind_app, (rfind_none _ _ NS), (rfind_none _ _ ND).
  destruct (rfind "." dir) as [d|] eqn:E; [|reflexivity]. apply rfind_lt in E.
  destruct DD as [->|(d' & ->)]; [cbn in E; lia|]. rewrite rfind_app. rewrite length_append in E. cbn in E. change (rfind "/" "/") with (Some 0). cbv beta iota.
  destruct (Nat.leb_spec (S (String.length d' + 0)) d); [lia|]. reflexivity.
Qed.

(** ** Values *)
Lemma number_ok y x : is_number y x -> number y = Ok x.
Proof. intros [->|(z & -> & ->)]; reflexivity. Qed.
Lemma triple_ok y v : is_triple y v -> triple y = Ok v.
Proof. intros (a & b & c & -> & A & B & C). cbn [triple]. rewrite (number_ok _ _ A). cbn [bind]. rewrite (number_ok _ _ B). cbn [bind]. rewrite (number_ok _ _ C). now destruct v as ((x, y), z). Qed.
Lemma matrix_ok y v : is_matrix y v -> matrix y = Ok v.
Proof. intros (a & b & c & -> & A & B & C). cbn [matrix]. rewrite (triple_ok _ _ A). cbn [bind]. rewrite (triple_ok _ _ B). cbn [bind]. rewrite (triple_ok _ _ C). now destruct v as ((x, y), z). Qed.
Lemma count_nat n : count (YInt (Z.of_nat n)) = Ok n.
Proof. unfold count. destruct (Z.ltb_spec (Z.of_nat n) 0); [lia|]. now rewrite Nat2Z.id. Qed.
(** each over the indices of a list related element by element *)
Lemma each_list {A B C} (rel : A -> B -> Prop) (f : list A -> nat -> outcome C) (g : B -> C) l m :
  Forall2 rel l m -> (forall i a b, nth_error l i = Some a -> rel a b -> f l i = Ok (g b)) ->
  each (f l) (seq 0 (List.length m)) = Ok (map g m).
Proof.
  intros F H. assert (G : forall l1 l2 m2, l = l1 ++ l2 -> Forall2 rel l2 m2 -> each (f l) (seq (List.length l1) (List.length m2)) = Ok (map g m2)).
  { intros l1 l2 m2. revert l1 l2. induction m2 as [|b m2 IH]; intros l1 l2 E F2; inversion F2; subst; cbn [seq List.length map each]; [reflexivity|].
    rewrite (H _ x b); [|rewrite nth_error_app2 by lia; now rewrite Nat.sub_diag|assumption]. cbn [bind].
    replace (S (List.length l1)) with (List.length (l1 ++ [x])) by (rewrite app_length; cbn; lia). rewrite (IH (l1 ++ [x]) l0); [reflexivity| |assumption]. now rewrite <- app_assoc. }
  apply (G [] l m); [reflexivity|exact F].
Qed.
Lemma forall2_length {A B} (rel : A -> B -> Prop) l m : Forall2 rel l m -> List.length l = List.length m.
Proof. induction 1; cbn; congruence. Qed.
Lemma atoms_ok ps atoms : Forall2 is_atom ps atoms -> each (atom ps) (seq 0 (List.length atoms)) = Ok (map (fun a => (snd (fst a), truncated (snd a))) atoms).
Proof.
  intros F. apply (each_list is_atom atom (fun a => (snd (fst a), truncated (snd a))) ps atoms F).
  intros i p a E (S & Z & c & C & T). unfold atom, item. rewrite E. cbn [bind]. rewrite S. cbn [bind]. rewrite Z. cbn [bind]. rewrite C. cbn [bind]. rewrite (triple_ok _ _ T). reflexivity.
Qed.
Lemma unit_ok y m : is_mesh y m -> set_unit_cell y = Ok (m_natom m,
  {| numbers := map (fun a => snd (fst a)) (m_atoms m); positions := map (fun a => truncated (snd a)) (m_atoms m); lattice := m_lattice m |}).
Proof.
  intros (N & (l & L & M) & (ps & P & F) & _). unfold set_unit_cell. rewrite N. cbn [bind]. rewrite count_nat. cbn [bind]. rewrite L. cbn [bind].
  assert (E : (if m_natom m =? 0 then Ok [] else let? p := get "points" y in let? l := elements p in each (atom l) (seq 0 (m_natom m))) =
    Ok (map (fun a => (snd (fst a), truncated (snd a))) (m_atoms m))).
  { destruct (Nat.eqb_spec (m_natom m) 0) as [Z|Z].
    - unfold m_natom in Z. destruct (m_atoms m); [reflexivity|discriminate].
    - rewrite P. cbn [bind elements]. apply atoms_ok, F. }
  rewrite E. cbn [bind]. rewrite (matrix_ok _ _ M). cbn [bind]. now rewrite !map_map.
Qed.
Lemma displacements_ok y dim : is_displacements y dim -> exists c, set_displacements y = Ok (dim, c).
Proof.
  intros ((d & D & M) & s & lat & l & atoms & ps & S & L & ML & P & F). unfold set_displacements. rewrite D. cbn [bind]. rewrite (matrix_ok _ _ M). cbn [bind]. rewrite S. cbn [bind].
  rewrite P. cbn [bind elements]. rewrite L. cbn [bind]. rewrite (forall2_length _ _ _ F), (atoms_ok _ _ F). cbn [bind]. rewrite (matrix_ok _ _ ML). eexists. reflexivity.
Qed.
Section Constants.
Variable K : constants.
(** THz in cm^-1 *)
Definition wavenumber (f : R) : R := (10 ^ 12 * f / (c_ms K * 100))%R.
Lemma mode_ok bs fs : Forall2 is_mode bs fs -> each (mode K (YList bs)) (seq 0 (List.length fs)) = Ok (map wavenumber fs).
Proof.
  intros F. apply (each_list is_mode (fun l => mode K (YList l)) wavenumber bs fs F). intros i b f E (v & G & N). unfold mode. cbn [elements bind]. unfold item. rewrite E. cbn [bind].
  rewrite G. cbn [bind]. rewrite (number_ok _ _ N). cbn [bind]. replace (convert_frequency K f "THz" "cm^-1") with (Some (wavenumber f)); [reflexivity|]. transitivity (Some (tera * f / (c_ms K * 100))%R); [|reflexivity]. f_equal. unfold wavenumber. replace tera with (10 ^ 12)%R by (unfold tera; ring). reflexivity.
Qed.
Lemma phonons_ok y m : is_mesh y m -> set_phonons K y = Ok (m_nq m, map (fun q => (fst q, map wavenumber (snd q))) (m_qs m)).
Proof.
  intros (N & _ & _ & Q & (qs & P & F)). unfold set_phonons. rewrite N. cbn [bind]. rewrite count_nat. cbn [bind]. rewrite Q. cbn [bind]. rewrite count_nat. cbn [bind].
  destruct (Nat.eqb_spec (m_nq m) 0) as [Z|Z].
  - unfold m_nq in *. destruct (m_qs m); [reflexivity|discriminate].
  - rewrite P. cbn [bind elements]. fold (m_nq m). unfold m_nq. rewrite (each_list (is_q (m_natom m)) (q_point K (3 * m_natom m)) (fun q => (fst q, map wavenumber (snd q))) qs (m_qs m) F); [reflexivity|].
    intros i q b E ((p & P1 & P2) & (w & W1 & W2) & (bs & B1 & B2 & B3)). unfold q_point. unfold item. rewrite E. cbn [bind]. rewrite P1. cbn [bind]. rewrite (triple_ok _ _ P2). cbn [bind].
    rewrite W1. cbn [bind]. rewrite (number_ok _ _ W2). cbn [bind]. rewrite <- B3.
    destruct (Nat.eqb_spec (List.length (snd b)) 0) as [Y|Y].
    + destruct b as ((bp, bw), [|]); [reflexivity|discriminate].
    + rewrite B1. cbn [bind]. rewrite (mode_ok _ _ B2). cbn [bind]. destruct b as ((bp, bw), bl). reflexivity.
Qed.
End Constants.
Lemma energy_ok x e : is_energy x e -> forall e0, match x with Energies l => energy_of l e0 | _ => Raises "" end = Ok e.
Proof.
  intros (before & t & after & -> & B & T & A) e0. revert e0. induction B as [|(n, t') before (n' & N & V) B IH]; intros e0; cbn [app energy_of].
  - change (String.eqb "e_wo_entrp" "e_wo_entrp") with true. rewrite T. clear - A. revert e. induction A as [|(n, t) after (n' & N & V) A IH]; intros e; cbn [energy_of]; [reflexivity|].
    cbn [fst] in N. subst n. destruct (String.eqb_spec n' "e_wo_entrp"); [congruence|]. apply IH.
  - cbn [fst snd] in *. subst n. destruct (String.eqb_spec n' "e_wo_entrp") as [->|Ne]; [|apply IH]. destruct (V eq_refl) as (v & ->). apply IH.
Qed.

(** ** C80 *)
Section Disk.
Variable K : constants.
Variable yaml_file : string -> option parsed.
Variable xml_file : string -> xml.
Notation load := (load_phonopy K yaml_file xml_file).
Notation disk := (phonopy_disk K yaml_file xml_file).
(** The three files of one calculation *)
Definition calculation (dir base ext : string) (m : mesh) (sc : three_reals * three_reals * three_reals) : Prop :=
  path dir base ext /\
  (exists y, yaml_file (dir +++ base +++ "." +++ ext) = Some (Parsed y) /\ is_mesh y m) /\
  (exists y, yaml_file (dir +++ base +++ "_disp.yaml") = Some (Parsed y) /\ is_displacements y sc).
Lemma calculation_loads dir base ext m sc e : calculation dir base ext m sc ->
  match xml_file (dir +++ base +++ ".xml") with NoXml => Ok 0%R | BadXml => Raises "ParseError" | Energies l => energy_of l 0%R end = Ok e ->
  exists super, load (dir +++ base +++ "." +++ ext) = Ok (Complete {|
    unitcell := {| numbers := map (fun a => snd (fst a)) (m_atoms m); positions := map (fun a => truncated (snd a)) (m_atoms m); lattice := m_lattice m |};
    supercell := super;
    used := {| natom := Z.of_nat (m_natom m); dim := sc; qpoints := m_nq m; qcoords := map (fun q => fst (fst q)) (m_qs m); shrinkf := (1, 1, 1)%R;
               weights := map (fun q => snd (fst q)) (m_qs m); nphonon := 3 * m_natom m; volume := det (m_lattice m); energy := e;
               phonons := map (fun q => map (wavenumber K) (snd q)) (m_qs m) |} |}).
Proof.
  intros (PA & (y & Y & M) & (d & D & SC)) E. unfold load_phonopy. rewrite (root_path _ _ _ PA).
  rewrite <- !append_assoc3. rewrite D, E. cbn [bind]. rewrite Y. cbn [load_yaml bind]. rewrite (unit_ok _ _ M). cbn [bind].
  destruct (displacements_ok _ _ SC) as (c & ->). cbn [bind]. rewrite (phonons_ok K _ _ M). cbn [bind lattice]. rewrite !map_map. exists c. reflexivity.
Qed.
(** A complete calculation is read: its own atoms, cell, supercell, q-points
    and, in cm^-1, frequencies; the energy is that of the last ionic step. *)
Theorem C80_reads dir base ext m sc e : calculation dir base ext m sc -> is_energy (xml_file (dir +++ base +++ ".xml")) e ->
  exists p, load (dir +++ base +++ "." +++ ext) = Ok (Complete p) /\
    natom (used p) = Z.of_nat (List.length (m_atoms m)) /\ nphonon (used p) = 3 * List.length (m_atoms m) /\ dim (used p) = sc /\
    volume (used p) = triple_product (m_lattice m) /\ energy (used p) = e /\
    qpoints (used p) = List.length (m_qs m) /\ List.length (qcoords (used p)) = List.length (m_qs m) /\ List.length (weights (used p)) = List.length (m_qs m) /\
    (forall i q, nth_error (m_qs m) i = Some q ->
      nth_error (qcoords (used p)) i = Some (fst (fst q)) /\ nth_error (weights (used p)) i = Some (snd (fst q)) /\
      forall j f, nth_error (snd q) j = Some f -> frequency (used p) i j = (f * 10 ^ 12 / (100 * c_ms K))%R) /\
    numbers (unitcell p) = map (fun a => snd (fst a)) (m_atoms m).
Proof.
  intros C E. destruct (calculation_loads dir base ext m sc e C) as (super & L).
  { pose proof (energy_ok _ _ E 0%R) as X. destruct (xml_file _); [discriminate|discriminate|exact X]. }
  eexists. split; [exact L|]. cbn [used natom nphonon dim volume energy qpoints qcoords weights unitcell numbers]. rewrite !map_length.
  do 3 (split; [reflexivity|]). split.
  { unfold det, triple_product. destruct (m_lattice m) as ((((a1, a2), a3), ((b1, b2), b3)), ((c1, c2), c3)). ring. }
  do 4 (split; [reflexivity|]). split; [|reflexivity].
  intros i q Q. rewrite !nth_error_map, Q. do 2 (split; [reflexivity|]). intros j f F. unfold frequency. cbn [phonons].
  rewrite (nth_error_nth (map _ (m_qs m)) i [] (x := map (wavenumber K) (snd q))) by (now rewrite nth_error_map, Q).
  rewrite (nth_error_nth (map _ (snd q)) j 0%R (x := wavenumber K f)) by (now rewrite nth_error_map, F).
  unfold wavenumber, Rdiv. rewrite (Rmult_comm 100), (Rmult_comm f). reflexivity.
Qed.
(** Without the VASP file the calculation is accepted with energy zero. *)
Theorem C80_no_energy_refuted dir base ext m sc : calculation dir base ext m sc -> xml_file (dir +++ base +++ ".xml") = NoXml ->
  exists p, load (dir +++ base +++ "." +++ ext) = Ok (Complete p) /\ energy (used p) = 0%R.
Proof.
  intros C E. destruct (calculation_loads dir base ext m sc 0%R C) as (super & L); [now rewrite E|]. eexists. split; [exact L|reflexivity].
Qed.
(** Fractional coordinates are stored truncated: all atoms at the origin. *)
Theorem C80_positions_refuted dir base ext m sc : calculation dir base ext m sc -> xml_file (dir +++ base +++ ".xml") = NoXml ->
  (forall a, In a (m_atoms m) -> let '(x, y, z) := snd a in (0 <= x < 1 /\ 0 <= y < 1 /\ 0 <= z < 1)%R) ->
  exists p, load (dir +++ base +++ "." +++ ext) = Ok (Complete p) /\ positions (unitcell p) = map (fun _ => (0, 0, 0)%Z) (m_atoms m).
Proof.
  intros C E H. destruct (calculation_loads dir base ext m sc 0%R C) as (super & L); [now rewrite E|]. eexists. split; [exact L|].
  cbn [unitcell positions]. apply map_ext_in. intros a I. specialize (H a I). destruct (snd a) as ((x, y), z). unfold truncated.
  assert (T : forall r, (0 <= r < 1)%R -> Ztrunc r = 0%Z).
  { intros r B. rewrite Ztrunc_floor by apply B. apply Zfloor_imp. cbn. lra. }
  rewrite !T by apply H. reflexivity.
Qed.
(** Left-handed cells get a negative volume. *)
Theorem C80_left_handed_refuted dir base ext m sc e : calculation dir base ext m sc -> is_energy (xml_file (dir +++ base +++ ".xml")) e ->
  (triple_product (m_lattice m) < 0)%R -> exists p, load (dir +++ base +++ "." +++ ext) = Ok (Complete p) /\ (volume (used p) < 0)%R.
Proof. intros C E H. destruct (C80_reads _ _ _ _ _ _ C E) as (p & L & _ & _ & _ & V & _). exists p. split; [exact L|]. now rewrite V. Qed.

(** Failures, seen from the command. *)
Theorem C80_no_displacements f r ref job p : stem f r -> yaml_file f <> None -> yaml_file (r +++ "_disp.yaml") = None ->
  snd (inpgen disk Phonopy f None ref job p) =
    Message (Some ("Phonopy displacement file (phonopy_disp.yaml) not available!" +++ String newline "Will now exit" +++ String newline "")).
Proof.
  intros ST F D. rewrite <- (stem_root _ _ ST) in D. unfold inpgen, read. cbn [read_files]. unfold phonopy_disk, load_phonopy. rewrite D. destruct (yaml_file f); [reflexivity|congruence].
Qed.
(** A file that is not YAML ends in an UnboundLocalError instead of a message. *)
Theorem C80_yaml_error_refuted f r mark d ref job p : stem f r -> yaml_file f = Some (YamlError mark) -> yaml_file (r +++ "_disp.yaml") = Some d ->
  xml_file (r +++ ".xml") = NoXml ->
  snd (inpgen disk Phonopy f None ref job p) = Crash "UnboundLocalError".
Proof.
  intros ST F D X. rewrite <- (stem_root _ _ ST) in D, X. unfold inpgen, read. cbn [read_files]. unfold phonopy_disk, load_phonopy. rewrite F, D, X. reflexivity.
Qed.
(** A document without number of atoms or lattice is reported as no input file. *)
Theorem C80_missing_key f r m d ref job p : stem f r -> yaml_file f = Some (Parsed (YMap m)) -> yaml_file (r +++ "_disp.yaml") = Some d ->
  xml_file (r +++ ".xml") = NoXml ->
  ~ In "natom" (map fst m) \/ ((exists n, get "natom" (YMap m) = Ok (YInt (Z.of_nat n))) /\ ~ In "lattice" (map fst m)) ->
  snd (inpgen disk Phonopy f None ref job p) = Message (Some ("File '" +++ f +++ "' does not appear as a valid input file")).
Proof.
  intros ST F D X H. rewrite <- (stem_root _ _ ST) in D, X.
  assert (G : forall k, ~ In k (map fst m) -> get k (YMap m) = Raises "KeyError").
  { intros k N. transitivity (match find (fun p : string * yaml => String.eqb k (fst p)) m with Some (_, v) => @Ok yaml v | None => Raises "KeyError" end); [destruct k; reflexivity|]. destruct (find (fun p : string * yaml => String.eqb k (fst p)) m) as [(k', v)|] eqn:E; [|reflexivity]. exfalso. apply find_some in E as (I & Q). apply String.eqb_eq in Q. cbn in Q. subst k'.
    apply N. apply in_map_iff. now exists (k, v). }
  unfold inpgen, read. cbn [read_files]. unfold phonopy_disk, load_phonopy. rewrite F, D, X. cbn [bind load_yaml]. unfold set_unit_cell.
  destruct H as [N|((n & E) & N)].
  - rewrite (G _ N). reflexivity.
  - rewrite E. cbn [bind]. rewrite count_nat. cbn [bind]. rewrite (G _ N). reflexivity.
Qed.

(** From the files of several volumes to the document the (Q)HA reader gets:
    volumes, energies, frequencies in cm^-1 in the order of the list, within
    half a unit of the last printed digit. *)
Record volume_point := { v_dir : string; v_base : string; v_ext : string; v_mesh : mesh; v_dim : three_reals * three_reals * three_reals; v_energy : R }.
Definition available (v : volume_point) : Prop :=
  calculation (v_dir v) (v_base v) (v_ext v) (v_mesh v) (v_dim v) /\ is_energy (xml_file (v_dir v +++ v_base v +++ ".xml")) (v_energy v).
Definition file_of (v : volume_point) : string := v_dir v +++ v_base v +++ "." +++ v_ext v.
Definition no_q : three_reals * R * list R := ((0, 0, 0)%R, 0%R, []).
Definition THz (v : volume_point) (i j : nat) : R := nth j (snd (nth i (m_qs (v_mesh v)) no_q)) 0%R.
Theorem C80_generated (lls : list string) (vs : list volume_point) k r job filename :
  map rstrip lls = map file_of vs -> Forall available vs -> nth_error vs k = Some r -> plain job ->
  0 < m_natom (v_mesh r) -> 0 < m_nq (v_mesh r) ->
  Forall (fun v => m_natom (v_mesh v) = m_natom (v_mesh r) /\ m_nq (v_mesh v) = m_nq (v_mesh r)) vs ->
  exists ls y, snd (inpgen disk Phonopy filename (Some lls) (Z.of_nat k) job {| phondata := []; own := Shared |}) = Written ls /\
    yaml_of (join_lines ls) = Some y /\ jobname y = Ok (strip job) /\
    read_back y (m_natom (v_mesh r)) (v_dim r) (m_nq (v_mesh r)) (map (fun v => triple_product (m_lattice (v_mesh v))) vs) (map v_energy vs)
      (fun i => snd (fst (nth i (m_qs (v_mesh r)) no_q)))
      (fun i j n => nth n (map (fun v => THz v i j * 10 ^ 12 / (100 * c_ms K))%R vs) 0%R).
Proof.
  intros L A Kr J Na Nq Sh.
  pose (out := fun v => {| natom := Z.of_nat (m_natom (v_mesh v)); dim := v_dim v; qpoints := m_nq (v_mesh v); qcoords := map (fun q => fst (fst q)) (m_qs (v_mesh v)); shrinkf := (1, 1, 1)%R;
               weights := map (fun q => snd (fst q)) (m_qs (v_mesh v)); nphonon := 3 * m_natom (v_mesh v); volume := det (m_lattice (v_mesh v)); energy := v_energy v;
               phonons := map (fun q => map (wavenumber K) (snd q)) (m_qs (v_mesh v)) |}).
  assert (O : forall v, available v -> disk (file_of v) = Phonons (out v)).
  { intros v (C & E). destruct (calculation_loads _ _ _ _ _ (v_energy v) C) as (super & LD).
    { pose proof (energy_ok _ _ E 0%R) as X. destruct (xml_file _); [discriminate|discriminate|exact X]. }
    unfold phonopy_disk, file_of. destruct C as (_ & (y & Y & _) & _). rewrite Y, LD. reflexivity. }
  assert (F : Forall2 (fun f d => disk f = Phonons d) (map rstrip lls) (map out vs)).
  { rewrite L. clear - O A. induction A as [|v vs H A IH]; cbn; constructor; [now apply O|exact IH]. }
  destruct (C60_history disk Phonopy filename lls (map out vs) (Z.of_nat k) job {| phondata := []; own := Shared |} eq_refl F) as (H & _). cbn [phondata app] in H.
  assert (KL : k < List.length vs) by (apply nth_error_Some; congruence).
  rewrite map_length in H. destruct (Z.ltb_spec (Z.of_nat (List.length vs)) (Z.of_nat k)); [lia|].
  assert (PI : py_item (map out vs) (Z.of_nat k) = Ok (out r)).
  { unfold py_item. destruct (Z.ltb_spec (Z.of_nat k) 0); [lia|]. rewrite Nat2Z.id. unfold item. rewrite nth_error_map, Kr. reflexivity. }
  assert (MS : forall v i, available v -> i < m_nq (v_mesh v) -> List.length (snd (nth i (m_qs (v_mesh v)) no_q)) = 3 * m_natom (v_mesh v)).
  { intros v i ((_ & (y & _ & (_ & _ & _ & _ & qs & _ & Q)) & _) & _) Hi.
    assert (G : Forall (fun q => List.length (snd q) = 3 * m_natom (v_mesh v)) (m_qs (v_mesh v))).
    { clear Hi. induction Q as [|a b l m (_ & _ & bs & _ & _ & X) Q IH]; constructor; assumption. }
    rewrite Forall_forall in G. apply G. apply nth_In. exact Hi. }
  assert (NI : forall v i, i < m_nq (v_mesh v) -> nth_error (phonons (out v)) i = Some (map (wavenumber K) (snd (nth i (m_qs (v_mesh v)) no_q)))).
  { intros v i Hi. cbn [out phonons]. rewrite nth_error_map. rewrite (nth_error_nth' _ no_q Hi). reflexivity. }
  destruct (C60_roundtrip (map out vs) job (Z.of_nat k) (out r) (m_natom (v_mesh r)) PI J) as (ls & y & ML & Y & JN & RB).
  - reflexivity.
  - cbn [out nphonon]. lia.
  - exact Na.
  - exact Nq.
  - cbn [out qpoints qcoords]. rewrite map_length. apply le_n.
  - cbn [out qpoints weights]. rewrite map_length. apply le_n.
  - apply Forall_forall. intros d Id. apply in_map_iff in Id as (v & <- & Iv). rewrite Forall_forall in A, Sh. specialize (A v Iv). destruct (Sh v Iv) as (S1 & S2).
    intros i Hi. cbn [out qpoints nphonon] in *. eexists. split; [apply NI; lia|]. rewrite map_length, MS; [lia|exact A|lia].
  - exists ls, y. rewrite H, ML. split; [reflexivity|]. split; [exact Y|]. split; [exact JN|].
    cbn [out dim qpoints] in RB. rewrite !map_map in RB. cbn [out volume energy] in RB.
    unfold read_back in *. destruct RB as (R1 & R2 & R3 & R4 & R5 & R6 & R7).
    split; [exact R1|]. split; [exact R2|]. split; [exact R3|]. split.
    { erewrite map_ext; [exact R4|]. intros v. unfold det, triple_product. destruct (m_lattice (v_mesh v)) as ((((a1, a2), a3), ((b1, b2), b3)), ((c1, c2), c3)). ring. }
    split; [exact R5|]. split.
    + destruct R6 as (mm & M1 & M2). exists mm. split; [exact M1|]. intros i j n Hi Hj Hn. rewrite map_length in *.
      destruct (M2 i j n Hi Hj Hn) as (x & X1 & X2). exists x. split; [exact X1|].
      rewrite (map_map out) in X2.
      erewrite (map_ext_in _ (fun v => frequency (out v) i j)); [exact X2|]. intros v Iv. rewrite Forall_forall in A, Sh. destruct (Sh v Iv) as (S1 & S2).
      unfold frequency. rewrite (nth_error_nth _ _ _ (NI v i ltac:(lia))). unfold THz.
      rewrite (nth_indep (map (wavenumber K) (snd (nth i (m_qs (v_mesh v)) no_q))) 0%R (wavenumber K 0%R)) by (rewrite map_length, MS; [lia|now apply A|lia]).
      rewrite map_nth. unfold wavenumber, Rdiv. rewrite (Rmult_comm 100), (Rmult_comm (nth _ _ _)). reflexivity.
    + destruct R7 as (u & U1 & U2). exists u. split; [exact U1|]. intros i Hi. rewrite (U2 i Hi). cbn [out weights].
      change 0%R with (snd (fst no_q)) at 1. now rewrite (map_nth (fun q : three_reals * R * list R => snd (fst q))).
Qed.
End Disk.

(** ** A calculation: one copper atom at (1/2, 1/2, 1/2), one q-point, left-handed axes in run/b *)
Definition ints (a b c : Z) : yaml := YList [YInt a; YInt b; YInt c].
Definition half : R := (1 / 2)%R.
Definition cu_atom : yaml := YMap [("symbol", YStr "Cu"); ("coordinates", YList [YNum half; YNum half; YNum half])].
Definition cu_doc (lat : yaml) : yaml := YMap
  [("natom", YInt 1); ("lattice", lat); ("points", YList [cu_atom]); ("nqpoint", YInt 1);
   ("phonon", YList [YMap [("q-position", ints 0 0 0); ("weight", YInt 1);
      ("band", YList [YMap [("frequency", YInt 0)]; YMap [("frequency", YInt 2)]; YMap [("frequency", YInt 5)]])]])].
Definition cu_disp : yaml := YMap
  [("supercell_matrix", YList [ints 2 0 0; ints 0 2 0; ints 0 0 2]);
   ("supercell", YMap [("lattice", YList [ints 4 0 0; ints 0 4 0; ints 0 0 4]); ("points", YList [cu_atom])])].
Definition cu_yaml (f : string) : option parsed :=
  if String.eqb f "run/a.yaml" then Some (Parsed (cu_doc (YList [ints 2 0 0; ints 0 2 0; ints 0 0 2])))
  else if String.eqb f "run/b.yaml" then Some (Parsed (cu_doc (YList [ints 0 2 0; ints 2 0 0; ints 0 0 2])))
  else if String.eqb f "run/c.yaml" then Some (YamlError None)
  else if (String.eqb f "run/a_disp.yaml" || String.eqb f "run/b_disp.yaml" || String.eqb f "run/c_disp.yaml")%bool then Some (Parsed cu_disp) else None.
Definition cu_xml (f : string) : xml :=
  if (String.eqb f "run/a.xml" || String.eqb f "run/b.xml")%bool then Energies [(Some "e_fr_energy", " 7 "); (Some "e_wo_entrp", " 5 "); (Some "e_wo_entrp", " 8 "); (Some "e_0_energy", "x")] else NoXml.
Definition cu_mesh (lat : three_reals * three_reals * three_reals) : mesh :=
  {| m_lattice := lat; m_atoms := [("Cu", 29%Z, (half, half, half))]; m_qs := [((0, 0, 0)%R, 1%R, [0; 2; 5]%R)] |}.
Definition cu_a := cu_mesh ((2, 0, 0), (0, 2, 0), (0, 0, 2))%R.
Definition cu_b := cu_mesh ((0, 2, 0), (2, 0, 0), (0, 0, 2))%R.
Definition cu_dim : three_reals * three_reals * three_reals := ((2, 0, 0), (0, 2, 0), (0, 0, 2))%R.
Lemma ints_triple a b c : is_triple (ints a b c) (IZR a, IZR b, IZR c).
Proof. exists (YInt a), (YInt b), (YInt c). split; [reflexivity|]. repeat split; right; eauto. Qed.
Lemma cu_is_atom : is_atom cu_atom ("Cu", 29%Z, (half, half, half)).
Proof. split; [reflexivity|]. split; [reflexivity|]. eexists. split; [reflexivity|]. exists (YNum half), (YNum half), (YNum half). split; [reflexivity|]. repeat split; now left. Qed.
Lemma cu_is_mesh lat m : is_matrix lat m -> is_mesh (cu_doc lat) (cu_mesh m).
Proof.
  intros M. split; [reflexivity|]. split; [exists lat; split; [reflexivity|exact M]|]. split.
  { eexists. split; [reflexivity|]. constructor; [apply cu_is_atom|constructor]. }
  split; [reflexivity|]. eexists. split; [reflexivity|]. constructor; [|constructor].
  split; [eexists; split; [reflexivity|apply ints_triple]|]. split; [eexists; split; [reflexivity|right; eexists; split; reflexivity]|].
  eexists. split; [reflexivity|]. split; [|reflexivity].
  constructor; [|constructor; [|constructor; [|constructor]]]; eexists; (split; [reflexivity|]); right; eexists; split; reflexivity.
Qed.
Lemma cu_is_displacements : is_displacements cu_disp cu_dim.
Proof.
  assert (M : is_matrix (YList [ints 2 0 0; ints 0 2 0; ints 0 0 2]) cu_dim).
  { do 3 eexists. split; [reflexivity|]. split; [apply ints_triple|]. split; apply ints_triple. }
  split; [eexists; split; [reflexivity|exact M]|]. do 2 eexists. exists ((4, 0, 0), (0, 4, 0), (0, 0, 4))%R, [("Cu", 29%Z, (half, half, half))]. eexists.
  split; [reflexivity|]. split; [reflexivity|]. split.
  { do 3 eexists. split; [reflexivity|]. split; [apply ints_triple|]. split; apply ints_triple. }
  split; [reflexivity|]. constructor; [apply cu_is_atom|constructor].
Qed.
Lemma cu_path b : b = "a" \/ b = "b" -> path "run/" b "yaml".
Proof.
  intros [->| ->]; (split; [intros [E|[]]; discriminate|]); (split; [eexists; split; [left; reflexivity|discriminate]|]);
  (split; [intros [E|[E|[E|[E|[]]]]]; discriminate|]); (split; [intros [E|[E|[E|[E|[]]]]]; discriminate|]); right; exists "run"; reflexivity.
Qed.
Lemma cu_calculations : calculation cu_yaml "run/" "a" "yaml" cu_a cu_dim /\ calculation cu_yaml "run/" "b" "yaml" cu_b cu_dim.
Proof.
  split; (split; [apply cu_path; auto|]); (split; [|eexists; split; [reflexivity|apply cu_is_displacements]]); eexists; (split; [reflexivity|]); apply cu_is_mesh;
  do 3 eexists; (split; [reflexivity|]); (split; [apply ints_triple|]); split; apply ints_triple.
Qed.
Lemma cu_energy f : cu_xml f = cu_xml "run/a.xml" -> is_energy (cu_xml f) 8.
Proof.
  intros ->. exists [(Some "e_fr_energy", " 7 "); (Some "e_wo_entrp", " 5 ")], " 8 ", [(Some "e_0_energy", "x")].
  assert (P : forall c, (exists d, parse_float (strip c) = Some (literal false d "" 0)) -> exists v, parse_float (strip c) = Some (Num v)) by (intros c (d & ->); eexists; reflexivity).
  split; [reflexivity|]. split.
  - constructor; [eexists; split; [reflexivity|discriminate]|]. constructor; [|constructor]. eexists. split; [reflexivity|]. intros _. apply P. exists "5". reflexivity.
  - split.
    + transitivity (Some (literal false "8" "" 0)); [reflexivity|]. unfold literal. do 2 f_equal. cbn. change (1 * IZR 8 * 1 = 8)%R. lra.
    + constructor; [|constructor]. eexists. split; [reflexivity|discriminate].
Qed.
Example C80_instance : calculation cu_yaml "run/" "a" "yaml" cu_a cu_dim /\ is_energy (cu_xml "run/a.xml") 8 /\
  (exists p, load_phonopy codata cu_yaml cu_xml "run/b.yaml" = Ok (Complete p) /\ (volume (used p) < 0)%R) /\
  (exists ls y, snd (inpgen (phonopy_disk codata cu_yaml cu_xml) Phonopy "list" (Some [String.append "run/b.yaml" (String newline ""); "run/a.yaml"]) 1 "copper" {| phondata := []; own := Shared |}) = Written ls /\
    yaml_of (join_lines ls) = Some y /\ jobname y = Ok "copper" /\ natoms y = Ok 1) /\
  snd (inpgen (phonopy_disk codata cu_yaml cu_xml) Phonopy "run/c.yaml" None 0 "" {| phondata := []; own := Shared |}) = Crash "UnboundLocalError".
Proof.
  destruct cu_calculations as (A & B). split; [exact A|]. split; [apply cu_energy; reflexivity|]. split.
  { apply (C80_left_handed_refuted codata cu_yaml cu_xml "run/" "b" "yaml" cu_b cu_dim 8 B); [apply cu_energy; reflexivity|]. unfold triple_product. cbn. lra. }
  split; [|reflexivity].
  assert (J : plain "copper") by (split; [exists "c"%char, "opper"; split; reflexivity|split; reflexivity]).
  pose (va := {| v_dir := "run/"; v_base := "a"; v_ext := "yaml"; v_mesh := cu_a; v_dim := cu_dim; v_energy := 8 |}).
  pose (vb := {| v_dir := "run/"; v_base := "b"; v_ext := "yaml"; v_mesh := cu_b; v_dim := cu_dim; v_energy := 8 |}).
  destruct (C80_generated codata cu_yaml cu_xml [String.append "run/b.yaml" (String newline ""); "run/a.yaml"] [vb; va] 1 va "copper" "list") as (ls & y & W & Y & N & RB).
  - reflexivity.
  - constructor; [split; [exact B|apply cu_energy; reflexivity]|]. constructor; [split; [exact A|apply cu_energy; reflexivity]|constructor].
  - reflexivity.
  - exact J.
  - cbn. lia.
  - cbn. lia.
  - constructor; [split; reflexivity|constructor; [split; reflexivity|constructor]].
  - exists ls, y. split; [exact W|]. split; [exact Y|]. split; [exact N|]. apply RB.
Qed.

Print Assumptions C80_reads.
Print Assumptions C80_no_energy_refuted.
Print Assumptions C80_positions_refuted.
Print Assumptions C80_left_handed_refuted.
Print Assumptions C80_no_displacements.
Print Assumptions C80_yaml_error_refuted.
Print Assumptions C80_missing_key.
Print Assumptions C80_generated.
