(** The figures of a seismic run.
    - /repo/quantas/seismic/utils/seismic_plotter.py (SeismicPlotter)
    - /repo/quantas/IO/hdf5_reader.py (QuantasHDF5Reader: read, get_data_column)
    - /repo/quantas/seismic/seismic.py:41-107 (constructor, plotting flag), 304 (h5File), 308-330 (plot)
    - /repo/quantas/seismic/commands/cmd_seismic.py:108-151 (when plots are made)
    - /repo/quantas/utils/flags.py (Flag)
    What is handed to matplotlib and plotly is modelled: coordinates, values,
    markers, arrows, colour limits, titles and file names. Colour maps, contour
    interpolation, fonts and the drawing itself are not. Numbers are exact reals.
    The base class is imported from quantas/core/plotter.py, which does not exist
    at this commit; it is taken to be what the calculators use (echo). *)
From Coq Require Import Reals String Ascii List Bool Arith ZArith.
From Verif Require Import Py DecimalModel FormatModel FormatProofs QhaRunModel SeismicModel TableModel SoecTableModel SeismicTableModel.
Import ListNotations.
Open Scope string_scope.
Open Scope list_scope.
Open Scope nat_scope.

Notation Ok := QhaRunModel.Ok.
Notation Raises := QhaRunModel.Raises.
Notation bind := QhaRunModel.bind.

(** * Reading the result file *)
(** hdf5_reader.py:26-36. Datasets of seismic files have no attributes
    (seismic.py:295-302), those of other files are left out. *)
Definition reader_info (f : h5) : QhaRunModel.outcome string :=
  match info f with
  | None => Raises "KeyError"
  | Some i => Ok (i +++ nl +++ "Available data:" +++ nl +++
                  fold_right (fun kd s => pad_left 15 (fst kd) +++ ": " +++ nl +++ s) "" (by_name (datasets f)))
  end.
(** hdf5_reader.py:52-60. A missing dataset or column is answered with a text;
    the callers use the answer as an array (AttributeError). *)
Definition get_data_column (f : h5) (key : string) (column : nat) : QhaRunModel.outcome (list R) :=
  match find key (datasets f) with
  | None => Raises "AttributeError"
  | Some d => match values d with
              | Vec _ => Raises "AttributeError"
              | Mat m => if forallb (fun r => column <? List.length r) m then Ok (map (fun r => nth column r 0%R) m) else Raises "AttributeError"
              end
  end.
(** str.replace(sub, '') for a non-empty sub; skip characters are still inside
    a match *)
Fixpoint remove_all (sub : string) (skip : nat) (s : string) : string :=
  match s with
  | EmptyString => ""
  | String a r => match skip with
                  | S k => remove_all sub k r
                  | 0 => if String.prefix sub s then remove_all sub (String.length sub - 1) r else String a (remove_all sub 0 r)
                  end
  end.
(** seismic_plotter.py:403-407: the rows before the first non-zero angle *)
Fixpoint leading_zeros (theta : list R) : QhaRunModel.outcome nat :=
  match theta with
  | [] => Raises "IndexError"
  | x :: l => if Req_EM_T x 0 then bind (leading_zeros l) (fun n => Ok (S n)) else Ok 0
  end.
Record plotter := { source : h5; basename : string; p_ntheta : nat; p_nphi : nat }.
Inductive loaded := Refused (message : string) | Failed (exception : string) | Loaded (p : plotter).
(** seismic_plotter.py:376-411; None: the file is not in HDF5 format *)
Definition read_data (filename : string) (file : option h5) : loaded :=
  match file with
  | None => Refused "This is not a QUANTAS hdf5 file"
  | Some f =>
    match reader_info f with
    | Raises e => Failed e
    | Ok i =>
      if negb (contains "Phase velocity" i) then Refused "This file does not contain the required results"
      else
        let base := remove_all "_SEISMIC" 0 (remove_all ".hdf5" 0 filename) in
        match get_data_column f "primary" 0 with
        | Raises e => Failed e
        | Ok theta =>
          match leading_zeros theta with
          | Raises e => Failed e
          | Ok 0 => Failed "ZeroDivisionError"
          | Ok nphi => Loaded {| source := f; basename := base; p_ntheta := List.length theta / nphi; p_nphi := nphi |}
          end
        end
    end
  end.

(** * Grids *)
(** np.mgrid[0:stop:n*1j] along one axis; the step of one point is 1 *)
Definition mgrid (stop : R) (n i : nat) : R := (INR i * (if (n =? 1)%nat then 1 else stop / INR (n - 1)) + 0)%R.
Definition grid := list (list R).
Definition on_grid (n m : nat) (f : nat -> nat -> R) : grid := map (fun i => map (f i) (seq 0 m)) (seq 0 n).
Definition at_ (g : grid) (i j : nat) : R := nth j (nth i g []) 0%R.
(** ndarray.reshape(n, m), row by row *)
Fixpoint rows_of (n m : nat) (l : list R) : grid :=
  match n with 0 => [] | S n => firstn m l :: rows_of n m (skipn m l) end.
Definition reshape (n m : nat) (l : list R) : QhaRunModel.outcome grid :=
  if (List.length l =? n * m)%nat then Ok (rows_of n m l) else Raises "ValueError".
Definition map_grid (f : R -> R) (g : grid) : grid := map (map f) g.
Definition map_grid2 (f : R -> R -> R) (a b : grid) : grid :=
  map (fun '(r, s) => map (fun '(x, y) => f x y) (combine r s)) (combine a b).
(** argmax / argmin of the flattened array: the first extreme value *)
Fixpoint arg_best (better : R -> R -> bool) (best : R) (at_best k : nat) (l : list R) : nat :=
  match l with
  | [] => at_best
  | x :: l => if better x best then arg_best better x k (S k) l else arg_best better best at_best (S k) l
  end.
Definition arg (better : R -> R -> bool) (l : list R) : nat := match l with [] => 0 | x :: l => arg_best better x 0 1 l end.
Definition gtb (x y : R) : bool := if Rlt_dec y x then true else false.
Definition ltb (x y : R) : bool := if Rlt_dec x y then true else false.
Definition flat (g : grid) : list R := List.concat g.
(** np.unravel_index(k, (n, m)) *)
Definition unravel (m k : nat) : nat * nat := (k / m, k mod m).
Definition grid_max (g : grid) : R := nth (arg gtb (flat g)) (flat g) 0%R.
Definition grid_min (g : grid) : R := nth (arg ltb (flat g)) (flat g) 0%R.

(** * Figures *)
Inductive projection := Stereo | Eqar.
Definition projection_name (p : projection) : string := match p with Stereo => "stereo" | Eqar => "eqar" end.
(** seismic_plotter.py:552-559, 650-656, 767-773 *)
Definition plane (pr : projection) (u v : R) : R * R :=
  match pr with
  | Stereo => (tan (1 / 2 * u) * cos v, tan (1 / 2 * u) * sin v)%R
  | Eqar => (sqrt 2 * sin (1 / 2 * u) * cos v, sqrt 2 * sin (1 / 2 * u) * sin v)%R
  end.
(** One filled contour map. *)
Record panel := {
  title : string; label : string;
  px : grid; py : grid; pz : grid;
  cmin : option R; cmax : option R;
  isolines : nat;
  square : option (R * R) (* mark of the maximum *);
  circle : option (R * R) (* mark of the minimum *);
  arrows : list ((R * R) * (R * R)) (* position and components *) }.
(** One coloured surface of a 3D figure. *)
Record surface := { sx : grid; sy : grid; sz : grid; colour : grid; s_cmin : option R; s_cmax : option R }.
Inductive drawing := Flat (panels : list panel) | Round (title label : string) (surfaces : list surface).
Inductive event := Say (message : string) | Save (file : string) (d : drawing).
(** What happened before the end, or before an exception. *)
Definition script := (list event * option string)%type.
Definition done : script := ([], None).
Definition say (m : string) : script := ([Say m], None).
Definition andthen (a b : script) : script := match a with (l, None) => (l ++ fst b, snd b) | (l, Some e) => (l, Some e) end.
Infix ">>" := andthen (at level 60, right associativity).
Definition with_ {A} (x : QhaRunModel.outcome A) (k : A -> script) : script := match x with Ok a => k a | Raises e => ([], Some e) end.
Fixpoint each {A} (f : A -> script) (l : list A) : script := match l with [] => done | a :: l => f a >> each f l end.

(** seismic_plotter.py:93-97 *)
Definition wave_titles : list (string * string) :=
  [("ssecondary", "Slow Secondary"); ("fsecondary", "Fast Secondary"); ("primary", "Primary")].
(** seismic_plotter.py:99-213, in the order of the dictionary *)
Record quantity := {
  q_column : nat; q_name : string; q_label3 : string; q_label2 : string; q_suffix : string;
  q_cmin : string -> option R; q_cmax : string -> option R; q_levels : nat; q_anisotropy : bool }.
Definition no_limit (_ : string) : option R := None.
Definition quantities : list quantity :=
  [{| q_column := 2; q_name := "phase velocity"; q_label3 := "$\huge{v_p \: (km \: s^{-1})}$"; q_label2 := "$v_p \: (km \: s^{-1})$"; q_suffix := "Vp";
      q_cmin := no_limit; q_cmax := no_limit; q_levels := 10; q_anisotropy := true |};
   {| q_column := 3; q_name := "relative phase velocity"; q_label3 := "$\huge{v_p - v_{iso} \: (\%)}$"; q_label2 := "$v_p - v_{iso} \: (\%)$"; q_suffix := "Vp_rel";
      q_cmin := no_limit; q_cmax := no_limit; q_levels := 10; q_anisotropy := false |};
   {| q_column := 7; q_name := "group velocity"; q_label3 := "$\huge{v_g \: (km \: s^{-1})}$"; q_label2 := "$v_g \: (km \: s^{-1})$"; q_suffix := "Vg";
      q_cmin := no_limit; q_cmax := no_limit; q_levels := 10; q_anisotropy := true |};
   {| q_column := 8; q_name := "relative group velocity"; q_label3 := "$\huge{v_g - v_{iso} \: (\%)}$"; q_label2 := "$v_g - v_{iso} \: (\%)$"; q_suffix := "Vg_rel";
      q_cmin := no_limit; q_cmax := no_limit; q_levels := 10; q_anisotropy := false |};
   {| q_column := 12; q_name := "powerflow angle"; q_label3 := "$\huge{\psi \: (°)}$"; q_label2 := "$\psi \: (°)}$"; q_suffix := "pf_angle";
      q_cmin := no_limit; q_cmax := no_limit; q_levels := 5; q_anisotropy := false |};
   {| q_column := 13; q_name := "enhancement factor"; q_label3 := "$\huge{\log_{10}(A)}$"; q_label2 := "$\log_{10}(A)$"; q_suffix := "enhancement_factor";
      q_cmin := (fun p => Some (if String.eqb p "primary" then -0.6 else -2.5)%R);
      q_cmax := (fun p => Some (if String.eqb p "primary" then 1.2 else 5)%R); q_levels := 0; q_anisotropy := false |}].

(** seismic_plotter.py:444-469 *)
Definition anisotropy (xmin xmax : R) : R := (200 * (xmax - xmin) / (xmax + xmin))%R.
(** np.log10 of positive numbers (enhancement factors are) *)
Definition log10 (x : R) : R := (ln x / ln 10)%R.

Section Plotting.
Variable p : plotter.
Variable pr : projection.
Definition u_ (i : nat) : R := mgrid (PI / 2) (p_ntheta p) i.
Definition v_ (j : nat) : R := mgrid (2 * PI) (p_nphi p) j.
Definition mesh (f : R -> R -> R) : grid := on_grid (p_ntheta p) (p_nphi p) (fun i j => f (u_ i) (v_ j)).
Definition plane_x : grid := mesh (fun u v => fst (plane pr u v)).
Definition plane_y : grid := mesh (fun u v => snd (plane pr u v)).
Definition column (wave : string) (k : nat) : QhaRunModel.outcome grid :=
  bind (get_data_column (source p) wave k) (reshape (p_ntheta p) (p_nphi p)).
(** 491-495, 569-573: the enhancement factor is shown on a logarithmic scale *)
Definition shown (q : quantity) (wave : string) : QhaRunModel.outcome grid :=
  bind (column wave (q_column q)) (fun c => Ok (if (q_column q =? 13)%nat then map_grid log10 c else c)).

(** 471-532 *)
Definition figure_3D (q : quantity) (wave_title : string * string) : script :=
  let '(wave, name) := wave_title in
  let x := mesh (fun u v => sin u * cos v)%R in
  let y := mesh (fun u v => sin u * sin v)%R in
  let z := mesh (fun u v => cos u) in
  with_ (shown q wave) (fun c =>
  ([Save (basename p +++ "_" +++ q_suffix q +++ "_3D_" +++ wave +++ ".png")
     (Round name (q_label3 q)
       [{| sx := x; sy := y; sz := z; colour := c; s_cmin := q_cmin q wave; s_cmax := q_cmax q wave |};
        {| sx := map_grid Ropp x; sy := map_grid Ropp y; sz := map_grid Ropp z; colour := c; s_cmin := q_cmin q wave; s_cmax := q_cmax q wave |}])], None)).
Definition make_3D_plot (q : quantity) : script := each (figure_3D q) wave_titles.

(** 597-601, 679-683, ...: the mark of an extreme value; argmax of an empty
    array raises *)
Definition mark (better : R -> R -> bool) (g : grid) : QhaRunModel.outcome (R * R) :=
  match flat g with
  | [] => Raises "ValueError"
  | _ => let '(i, j) := unravel (p_nphi p) (arg better (flat g)) in Ok (at_ plane_x i j, at_ plane_y i j)
  end.
(** 562-634: one of the three maps, and the line printed for it (603-607) *)
Definition panel_2D (q : quantity) (wave_title : string * string) : QhaRunModel.outcome (panel * list event) :=
  let '(wave, name) := wave_title in
  bind (shown q wave) (fun z =>
  bind (mark gtb z) (fun high =>
  bind (mark ltb z) (fun low =>
  Ok ({| title := name; label := q_label2 q; px := plane_x; py := plane_y; pz := z;
         cmin := q_cmin q wave; cmax := q_cmax q wave; isolines := q_levels q;
         square := Some high; circle := Some low; arrows := [] |},
      if q_anisotropy q
      then [Say ("   * " +++ pad_left 15 name +++ ": anisotropy = " +++ fmt_f 5 1 (anisotropy (grid_min z) (grid_max z)) +++ " %")]
      else [])))).
Fixpoint panels_2D (q : quantity) (waves : list (string * string)) : list event * QhaRunModel.outcome (list panel) :=
  match waves with
  | [] => ([], Ok [])
  | w :: waves => match panel_2D q w with
                  | Raises e => ([], Raises e)
                  | Ok (a, said) => let '(more, r) := panels_2D q waves in (said ++ more, bind r (fun l => Ok (a :: l)))
                  end
  end.
(** 534-642 *)
Definition make_2D_plot (q : quantity) : script :=
  let '(said, r) := panels_2D q wave_titles in
  (said, None) >> with_ r (fun l => ([Save (basename p +++ "_" +++ q_suffix q +++ "_2D_" +++ projection_name pr +++ ".png") (Flat l)], None)).

(** 665-735: the marks come without title *)
Definition ratio_panel (text : string) (g : grid) : QhaRunModel.outcome panel :=
  bind (mark gtb g) (fun high => bind (mark ltb g) (fun low =>
  Ok {| title := ""; label := text; px := plane_x; py := plane_y; pz := g; cmin := None; cmax := None; isolines := 10;
        square := Some high; circle := Some low; arrows := [] |})).
(** 644-755. Division by zero is exact arithmetic's here. *)
Definition make_2D_plot_ratios : script :=
  with_ (column "primary" 2) (fun vp => with_ (column "fsecondary" 2) (fun vs1 => with_ (column "ssecondary" 2) (fun vs2 =>
  with_ (ratio_panel "S-wave anisotropy (%)" (map_grid2 anisotropy vs2 vs1)) (fun a =>
  with_ (ratio_panel "$v_P / v_{s1}$" (map_grid2 Rdiv vp vs1)) (fun b =>
  with_ (ratio_panel "$v_P / v_{s2}$" (map_grid2 Rdiv vp vs2)) (fun c =>
  ([Save (basename p +++ "_ratios_2D.png") (Flat [a; b; c])], None))))))).

(** 823-826: x[::20, ::20] *)
Definition every20 (n : nat) : list nat := filter (fun i => i mod 20 =? 0)%nat (seq 0 n).
Definition quiver (u v : grid) : list ((R * R) * (R * R)) :=
  flat_map (fun i => map (fun j => ((at_ plane_x i j, at_ plane_y i j), (at_ u i j, at_ v i j))) (every20 (p_nphi p))) (every20 (p_ntheta p)).
(** 777-850, quantity 2 *)
Definition polarization_panel (q : quantity) (wave_title : string * string) : QhaRunModel.outcome panel :=
  let '(wave, name) := wave_title in
  bind (column wave (q_column q)) (fun z => bind (column wave 9) (fun u => bind (column wave 10) (fun v =>
  Ok {| title := name; label := q_label2 q; px := plane_x; py := plane_y; pz := z; cmin := q_cmin q wave; cmax := q_cmax q wave;
        isolines := q_levels q; square := None; circle := None; arrows := quiver u v |}))).
(** 757-857 *)
Definition make_2D_plot_polarization : script :=
  each (fun q => with_ (SeismicTableModel.all_ok (polarization_panel q) wave_titles) (fun l =>
    ([Save (basename p +++ "_" +++ q_suffix q +++ "_2D_" +++ projection_name pr +++ "_polarization.png") (Flat l)], None))) (firstn 1 quantities).

(** 421-447; without matplotlib the name plt is unknown to the last two *)
Definition needs (mpl : bool) (s : script) : script := if mpl then s else ([], Some "NameError").
Definition run (mpl plotly two three : bool) : script :=
  each (fun q =>
    (if plotly then if three then say ("- making 3D plots of " +++ q_name q) >> make_3D_plot q else done else done) >>
    (if mpl then if two then say ("- making 2D plots of " +++ q_name q) >> make_2D_plot q else done else done)) quantities >>
  say "- making 2D plots of different ratios:" >>
  say "   * S-wave anisotropy = 200*(v_s1-v_s2)/(v_s1+v_s2)" >>
  say "   * v_P/v_s1" >>
  say "   * v_P/v_s2" >>
  needs mpl make_2D_plot_ratios >>
  say "- making 2D plots of polarization" >>
  needs mpl make_2D_plot_polarization.
End Plotting.

(** * When plots are made *)
(** flags.py; seismic.py:70, 89-107. The flag is an attribute of the class: one
    for all calculators of a process. *)
Record plot_settings := { s_mpl : bool; s_plotly : bool; s_two : bool; s_three : bool; s_projection : projection }.
Definition init (flag requested mpl plotly two three : bool) (pr : projection) : bool * option plot_settings :=
  if requested then
    if mpl || plotly then (true, Some {| s_mpl := mpl; s_plotly := plotly; s_two := two; s_three := three; s_projection := pr |})
    else (flag, None)
  else (flag, None).
(** seismic.py:308-330. Some: an answer (error text); the exception otherwise. *)
Definition plot (s : option plot_settings) (saved : option string) (files : string -> option h5) (filename : option string)
  : list event * QhaRunModel.outcome (option string) :=
  match s with
  | None => ([], Raises "AttributeError")
  | Some s =>
    match (match filename with Some f => Some f | None => saved end) with
    | None => ([], Raises "AttributeError")
    | Some f =>
      match read_data f (files f), filename with
      | Loaded p, _ => match run p (s_projection s) (s_mpl s) (s_plotly s) (s_two s) (s_three s) with
                       | (l, None) => (l, Ok None)
                       | (l, Some e) => (l, Raises e)
                       end
      | Failed e, _ => ([], Raises e)
      | Refused m, Some _ => ([], Ok (Some m))
      | Refused m, None => ([], Raises "AttributeError") (* run without the data; the lines said before are left out *)
      end
    end
  end.
(** cmd_seismic.py:108-151, from the constructor on, for a run that completes:
    [only] is --only-plot, [saved] tells whether the results were written (the
    file is new or may be overwritten). *)
Inductive finish := Finished | ErrorShown (message : string) | Crashed (exception : string).
Definition seismic_plots (flag requested only saved mpl plotly two three : bool) (pr : projection)
    (filename outfile : string) (files : string -> option h5) : bool * (list event * finish) :=
  let '(flag, s) := init flag requested mpl plotly two three pr in
  (flag,
   if only then
     match plot s None files (Some filename) with
     | (l, Ok None) => (l, Finished)
     | (l, Ok (Some m)) => (l, ErrorShown m)
     | (l, Raises e) => (l, Crashed e)
     end
   else if flag then
     match plot s (if saved then Some outfile else None) files None with
     | (l, Ok _) => (l, Finished)
     | (l, Raises e) => (l, Crashed e)
     end
   else ([], Finished)).
