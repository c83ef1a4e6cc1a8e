(* M_Plot.v : /repo/src/wulfric/_plotly_engine.py, class PlotlyEngine.
   What is kept of the plotly figure is the list of its traces: subplot, drawing mode, points,
   colours, the text drawn beside the points and the legend entry.  Simplifications: legend groups (random strings),
   line widths, marker sizes and hover texts are left out; plotly is taken to accept every
   trace (its own validation of colours and of row and col is not modelled). *)
From Verif Require Import Base M_Strings M_Dict T_Atoms M_Atoms M_Cell M_Voronoi M_Positions M_Spglib M_Kpoints M_Poscar.
Open Scope string_scope.
Open Scope list_scope.
Open Scope R_scope.

(* ---- _get_good_contrast :52-64 ---- *)
(* one character of int(s, 16) [/repo/src/wulfric/_plotly_engine.py:54] *)
Definition hex_value (c : ascii) : option Z :=
  let n := nat_of_ascii c in
  if (Nat.leb 48 n && Nat.leb n 57)%bool then Some (Z.of_nat (n - 48))
  else if (Nat.leb 97 n && Nat.leb n 102)%bool then Some (Z.of_nat (n - 87))
  else if (Nat.leb 65 n && Nat.leb n 70)%bool then Some (Z.of_nat (n - 55))
  else None.
(* /repo/src/wulfric/_plotly_engine.py:54 *)
Fixpoint hex_digits (acc : Z) (s : string) : res Z :=
  match s with
  | EmptyString => Ok acc
  | String c s' => match hex_value c with Some k => hex_digits (acc * 16 + k)%Z s' | None => Err ValueError end
  end.
(* int(s, 16) for a str of at most two characters: neither "0x" nor "_" can be part of a
   number that short [/repo/src/wulfric/_plotly_engine.py:54] *)
Definition hex_int (s : string) : res Z :=
  let '(neg, s1) := take_sign (strip s) in
  if nonempty s1 then do m <- hex_digits 0 s1; Ok (if neg then - m else m)%Z else Err ValueError.
(* x**2.2 for a float x >= 0 [/repo/src/wulfric/_plotly_engine.py:56-59] *)
Definition power_gamma (x : R) : R := if Reqb x 0 then 0 else Rpower x (22 / 10).
(* /repo/src/wulfric/_plotly_engine.py:53 *)
Definition tail1 (s : string) : string := match s with EmptyString => "" | String _ s' => s' end.
(* /repo/src/wulfric/_plotly_engine.py:53-62.  A negative number to a fractional power is a complex number in python, which ">" refuses. *)
Definition get_good_contrast (hex_color : string) : res string :=
  let h := tail1 hex_color in
  do r <- hex_int (substring 0 2 h);
  do g <- hex_int (substring 2 2 h);
  do b <- hex_int (substring 4 2 h);
  if ((r <? 0) || (g <? 0) || (b <? 0))%Z%bool then Err TypeError
  else
    let L := 2126 / 10000 * power_gamma (IZR r / 255) + 7152 / 10000 * power_gamma (IZR g / 255)
             + 722 / 10000 * power_gamma (IZR b / 255) in
    Ok (if Rltb (power_gamma (1 / 2)) L then "#000000" else "#FFFFFF").

(* ---- the figure ---- [/repo/src/wulfric/_plotly_engine.py:271, 337, 408, 419, 441, 751, 854, 1085] *)
Inductive mode := Lines | Markers | MarkersText | TextOnly | Cone.
(* /repo/src/wulfric/_plotly_engine.py:268-283 *)
Record trace := Trace {
  t_at : Z * Z;              (* row, col *)
  t_mode : mode;
  t_points : list vec;
  t_colors : list string;
  t_text : list string;
  t_label : option string }. (* name; showlegend = (label is not None) *)
(* what the methods do to the object: fig.add_traces and self._update_range
   [/repo/src/wulfric/_plotly_engine.py:268, 286] *)
Inductive action :=
| Add (t : trace)
| Update (at_ : Z * Z) (lo hi : vec).
(* /repo/src/wulfric/_plotly_engine.py:100, 107-109 *)
Record engine := Engine { e_traces : list trace; e_ranges : list ((Z * Z) * (vec * vec)) }.
(* __init__ /repo/src/wulfric/_plotly_engine.py:88-110, with fig=None *)
Definition new_engine : engine := Engine [] [].
(* /repo/src/wulfric/_plotly_engine.py:113 *)
Definition same_place (p q : Z * Z) : bool := (Z.eqb (fst p) (fst q) && Z.eqb (snd p) (snd q))%bool.
(* _update_range /repo/src/wulfric/_plotly_engine.py:112-123 *)
Fixpoint update_range (at_ : Z * Z) (lo hi : vec) (ranges : list ((Z * Z) * (vec * vec))) :=
  match ranges with
  | [] => [(at_, (lo, hi))]
  | (p, (l, h)) :: rest =>
      if same_place at_ p then (p, (vmin l lo, vmax h hi)) :: rest else (p, (l, h)) :: update_range at_ lo hi rest
  end.
(* /repo/src/wulfric/_plotly_engine.py:112-123, 268 *)
Definition perform (e : engine) (a : action) : engine :=
  match a with
  | Add t => Engine (e_traces e ++ [t]) (e_ranges e)
  | Update p lo hi => Engine (e_traces e) (update_range p lo hi (e_ranges e))
  end.

(* A method: what it does to the object, and the exception it ends with, if any. [the body of a method] [/repo/src/wulfric/_plotly_engine.py:65-1113] *)
Definition prog := (list action * option exn)%type.
(* an empty body [/repo/src/wulfric/_plotly_engine.py:65-1113] *)
Definition done : prog := ([], None).
(* statements that cannot raise [/repo/src/wulfric/_plotly_engine.py:268-295] *)
Definition act (l : list action) : prog := (l, None).
(* one statement after another [/repo/src/wulfric/_plotly_engine.py:268-295] *)
Definition and_then (p q : prog) : prog :=
  match p with (a, None) => (a ++ fst q, snd q) | (a, Some e) => (a, Some e) end.
(* an expression that may raise [/repo/src/wulfric/_plotly_engine.py:638] *)
Definition with_res {A} (r : res A) (k : A -> prog) : prog :=
  match r with Ok a => k a | Err e => ([], Some e) end.
(* /repo/src/wulfric/_plotly_engine.py:530, 542, 639, 742 for loops *)
Fixpoint all_of (l : list prog) : prog := match l with [] => done | p :: l' => and_then p (all_of l') end.

(* the bounding box reported after a trace; an empty list has no points[0] (IndexError)
   [/repo/src/wulfric/_plotly_engine.py:286-295] *)
Definition report (at_ : Z * Z) (points : list vec) (k : vec -> vec -> prog) : prog :=
  match points with
  | [] => ([], Some IndexError)
  | p :: l => k (fold_left vmin l p) (fold_left vmax l p)
  end.

(* plot_points /repo/src/wulfric/_plotly_engine.py:231-295 *)
Definition plot_points (at_ : Z * Z) (points : list vec) (colors : list string) (label : option string) : prog :=
  report at_ points (fun lo hi => act [Add (Trace at_ Markers points colors [] label); Update at_ lo hi]).
(* plot_line /repo/src/wulfric/_plotly_engine.py:297-361 *)
Definition plot_line (at_ : Z * Z) (p q : vec) (color : string) (label : option string) : prog :=
  act [Add (Trace at_ Lines [p; q] [color] [] label); Update at_ (vmin p q) (vmax p q)].
(* plot_vector /repo/src/wulfric/_plotly_engine.py:363-479 *)
Definition plot_vector (at_ : Z * Z) (p q : vec) (color : string) (vector_label label : option string) : prog :=
  let tip := vadd (vscale (12 / 10) (vsub q p)) p in
  act ([Add (Trace at_ Lines [p; q] [color] [] label); Add (Trace at_ Cone [q] [color] [] None)] ++
       match vector_label with
       | Some text => [Add (Trace at_ TextOnly [tip] [color] [text] None); Update at_ tip tip]
       | None => []
       end ++
       [Update at_ (vmin p q) (vmax p q)]).
(* /repo/src/wulfric/_plotly_engine.py:530-533 *)
Definition rows_of (cell : mat) : list vec := [row1 cell; row2 cell; row3 cell].
(* /repo/src/wulfric/_plotly_engine.py:529-539, 626-636 *)
Definition plot_vectors (at_ : Z * Z) (cell : mat) (shift : vec) (vector_label color : string) : prog :=
  all_of (map (fun iv => plot_vector at_ shift (vadd shift (snd iv)) color
                           (Some (String.append vector_label (dec (fst iv + 1)))) None)
              (combine [0; 1; 2]%nat (rows_of cell))).
(* the body of the loop /repo/src/wulfric/_plotly_engine.py:542-579 *)
Definition cell_lines (at_ : Z * Z) (shift ci cj ck : vec) (color : string) (label : option string) : prog :=
  all_of [plot_line at_ shift (vadd shift ci) color label;
          plot_line at_ (vadd shift ci) (vadd (vadd shift ci) cj) color None;
          plot_line at_ (vadd shift ci) (vadd (vadd shift ci) ck) color None;
          plot_line at_ (vadd (vadd shift ci) cj) (vadd (vadd (vadd shift ci) cj) ck) color None].
(* plot_cell /repo/src/wulfric/_plotly_engine.py:481-579 *)
Definition plot_cell (at_ : Z * Z) (cell : mat) (color : string) (vectors : bool) (vector_label : string)
           (shift : vec) (label : option string) : prog :=
  and_then (if vectors then plot_vectors at_ cell shift vector_label color else done)
    (all_of [cell_lines at_ shift (row1 cell) (row2 cell) (row3 cell) color label;
             cell_lines at_ shift (row2 cell) (row3 cell) (row1 cell) color None;
             cell_lines at_ shift (row3 cell) (row1 cell) (row2 cell) color None]).
(* /repo/src/wulfric/_plotly_engine.py:639-650 *)
Fixpoint edge_lines (at_ : Z * Z) (vertices : list vec) (edges : list (nat * nat)) (shift : vec) (color : string)
         (label : option string) : prog :=
  match edges with
  | [] => done
  | (i, j) :: rest =>
      and_then
        (with_res (np_index vertices (Z.of_nat i)) (fun p =>
         with_res (np_index vertices (Z.of_nat j)) (fun q =>
         plot_line at_ (vadd shift p) (vadd shift q) color label)))
        (edge_lines at_ vertices rest shift color None)
  end.
(* plot_wigner_seitz_cell /repo/src/wulfric/_plotly_engine.py:581-650 *)
Definition plot_wigner_seitz_cell (V : option (list vec -> voronoi)) (at_ : Z * Z) (cell : mat) (vectors : bool)
           (vector_label color : string) (shift : vec) (label : option string) : prog :=
  and_then (if vectors then plot_vectors at_ cell shift vector_label color else done)
    (with_res (get_wigner_seitz_cell V cell) (fun ve => edge_lines at_ (fst ve) (snd ve) shift color label)).
(* plot_brillouin_zone /repo/src/wulfric/_plotly_engine.py:652-702 *)
Definition plot_brillouin_zone (V : option (list vec -> voronoi)) (at_ : Z * Z) (cell : mat) (vectors : bool)
           (vector_label color : string) (shift : vec) (label : option string) : prog :=
  with_res (get_reciprocal cell) (fun r => plot_wigner_seitz_cell V at_ r vectors vector_label color shift label).

(* shift + kp.hs_coordinates[name] @ kp.rcell [/repo/src/wulfric/_plotly_engine.py:745, 834] *)
Definition absolute (kp : kpoints) (shift : vec) (name : string) : res vec :=
  do c <- getitem name (k_coords kp); Ok (vadd shift (vmat c (k_rcell kp))).
(* the loop of plot_kpath /repo/src/wulfric/_plotly_engine.py:742-765; xyz is None before the first iteration *)
Fixpoint kpath_lines (at_ : Z * Z) (kp : kpoints) (shift : vec) (color : string) (label : option string)
         (path : list (list string)) (xyz : option (list vec)) (k : option (list vec) -> prog) : prog :=
  match path with
  | [] => k xyz
  | subpath :: rest =>
      with_res (mapM (absolute kp shift) subpath) (fun ps =>
        match ps with
        | [] => ([], Some IndexError)
        | _ => and_then (act [Add (Trace at_ Lines ps [color] [] label)])
                        (kpath_lines at_ kp shift color None rest (Some ps) k)
        end)
  end.
(* plot_kpath /repo/src/wulfric/_plotly_engine.py:704-777: the range is updated once, after the loop *)
Definition plot_kpath (at_ : Z * Z) (kp : kpoints) (color : string) (shift : vec) (label : option string) : prog :=
  kpath_lines at_ kp shift color label (k_path kp) None (fun xyz =>
    match xyz with
    | None => ([], Some UnboundLocalError)
    | Some ps => report at_ ps (fun lo hi => act [Update at_ lo hi])
    end).
(* plot_kpoints /repo/src/wulfric/_plotly_engine.py:779-882.  The hover text needs the label of the point (KeyError). *)
Definition plot_kpoints (at_ : Z * Z) (kp : kpoints) (color : string) (shift : vec) (label : option string)
           (only_from_kpath : bool) : prog :=
  let names := filter (fun n => negb only_from_kpath || mem n (concat (k_path kp))) (k_names kp) in
  with_res (mapM (fun n => do p <- absolute kp shift n; do _ <- getitem n (k_labels kp); Ok p) names) (fun ps =>
    report at_ ps (fun lo hi => act [Add (Trace at_ MarkersText ps [color] names label); Update at_ lo hi])).
(* plot_lattice /repo/src/wulfric/_plotly_engine.py:884-945 *)
Definition plot_lattice (at_ : Z * Z) (cell : mat) (color : string) (r1 r2 r3 : Z) (shift : vec) (label : option string) : prog :=
  with_res (get_lattice_points cell r1 r2 r3 false) (fun ps =>
    plot_points at_ (map (fun p => vadd p shift) ps) [color] label).

(* the argument colors of plot_atoms [/repo/src/wulfric/_plotly_engine.py:951, 1022] *)
Inductive colors_arg := DefaultColors | OneColor (s : string) | ColorList (l : list string).
(* for color in colors: a str is iterated character by character [/repo/src/wulfric/_plotly_engine.py:1032] *)
Definition iterate_colors (c : colors_arg) : list string :=
  match c with DefaultColors => [] | OneColor s => chars s | ColorList l => l end.
(* ATOM_COLORS[species]; a list cannot be a key [/repo/src/wulfric/_plotly_engine.py:1030] *)
Definition color_of (species : pyval) : res string :=
  match species with PStr s => getitem s ATOM_COLORS | PList _ => Err TypeError | _ => Err KeyError end.
(* get_atom_species(name=name, raise_on_fail=False); only a str has .lower()
   [/repo/src/wulfric/_plotly_engine.py:1027] *)
Definition species_of (name : pyval) : res pyval :=
  match name with PStr s => do x <- get_atom_species s false; Ok (PStr x) | _ => Err AttributeError end.
(* f"{name}" of the names drawn beside the atoms; anything but a str is shown as "" here
   [/repo/src/wulfric/_plotly_engine.py:1092] *)
Definition shown_name (v : pyval) : string := match v with PStr s => s | _ => "" end.
(* /repo/src/wulfric/_plotly_engine.py:1020 *)
Definition numbered (n : nat) : list pyval := map (fun i => PStr (String.append "X" (dec (i + 1)))) (seq 0 n).
(* plot_atoms /repo/src/wulfric/_plotly_engine.py:947-1113.  Positions that are not an (N, 3) array of numbers, N > 0, are refused
   (simplification: always with ValueError). *)
Definition plot_atoms (at_ : Z * Z) (cell : mat) (atoms : atoms_dict) (colors : colors_arg) (label : option string)
           (shift : vec) (add_hoverinfo : bool) : prog :=
  with_res (getitem "positions" atoms) (fun v =>
  with_res (positions_of v) (fun positions =>
  if Nat.eqb (length positions) 0 then ([], Some ValueError) else
  let points := map (fun p => vadd (vmat p cell) shift) positions in
  let names := match lookup "names" atoms with Some l => elements l | None => numbered (length positions) end in
  with_res
    (match colors with
     | DefaultColors =>
         do species <- match lookup "species" atoms with Some l => Ok (elements l) | None => mapM species_of names end;
         do cs <- mapM color_of species;
         Ok (ColorList cs)
     | _ => Ok colors
     end) (fun colors =>
  with_res (mapM get_good_contrast (iterate_colors colors)) (fun text_colors =>
  with_res (if add_hoverinfo then mapM (fun kv => py_len (snd kv)) atoms else Ok []) (fun _ =>
  report at_ points (fun lo hi =>
    act [Add (Trace at_ MarkersText points (match colors with OneColor s => [s] | ColorList l => l | DefaultColors => [] end)
                    (map shown_name names) label);
         Update at_ lo hi])))))).

(* ---- histories of calls ---- [/repo/src/wulfric/_plotly_engine.py:231-959 the methods that draw] *)
Inductive call :=
| PlotPoints (at_ : Z * Z) (points : list vec) (colors : list string) (label : option string)
| PlotLine (at_ : Z * Z) (p q : vec) (color : string) (label : option string)
| PlotVector (at_ : Z * Z) (p q : vec) (color : string) (vector_label label : option string)
| PlotCell (at_ : Z * Z) (cell : mat) (color : string) (vectors : bool) (vector_label : string) (shift : vec) (label : option string)
| PlotWignerSeitz (V : option (list vec -> voronoi)) (at_ : Z * Z) (cell : mat) (vectors : bool) (vector_label color : string)
    (shift : vec) (label : option string)
| PlotBrillouin (V : option (list vec -> voronoi)) (at_ : Z * Z) (cell : mat) (vectors : bool) (vector_label color : string)
    (shift : vec) (label : option string)
| PlotKpath (at_ : Z * Z) (kp : kpoints) (color : string) (shift : vec) (label : option string)
| PlotKpoints (at_ : Z * Z) (kp : kpoints) (color : string) (shift : vec) (label : option string) (only_from_kpath : bool)
| PlotLattice (at_ : Z * Z) (cell : mat) (color : string) (r1 r2 r3 : Z) (shift : vec) (label : option string)
| PlotAtoms (at_ : Z * Z) (cell : mat) (atoms : atoms_dict) (colors : colors_arg) (label : option string) (shift : vec)
    (add_hoverinfo : bool).
(* /repo/src/wulfric/_plotly_engine.py:231-1113 *)
Definition program_of (c : call) : prog :=
  match c with
  | PlotPoints a ps cs l => plot_points a ps cs l
  | PlotLine a p q c l => plot_line a p q c l
  | PlotVector a p q c vl l => plot_vector a p q c vl l
  | PlotCell a m c v vl s l => plot_cell a m c v vl s l
  | PlotWignerSeitz V a m v vl c s l => plot_wigner_seitz_cell V a m v vl c s l
  | PlotBrillouin V a m v vl c s l => plot_brillouin_zone V a m v vl c s l
  | PlotKpath a kp c s l => plot_kpath a kp c s l
  | PlotKpoints a kp c s l o => plot_kpoints a kp c s l o
  | PlotLattice a m c r1 r2 r3 s l => plot_lattice a m c r1 r2 r3 s l
  | PlotAtoms a m atoms c l s h => plot_atoms a m atoms c l s h
  end.
(* The actions before an exception have taken place. [/repo/src/wulfric/_plotly_engine.py:231-1113] *)
Definition run_call (e : engine) (c : call) : engine * option exn :=
  let '(l, x) := program_of c in (fold_left perform l e, x).
(* a history of calls [/repo/src/wulfric/_plotly_engine.py:65-1113] *)
Definition run_calls (e : engine) (cs : list call) : engine := fold_left (fun e c => fst (run_call e c)) cs e.

(* ---- show and save :149-222 ---- *)
(* _LEGEND_SETTINGS /repo/src/wulfric/_plotly_engine.py:43-48 *)
Definition LEGEND_POSITIONS : list string := ["top"; "bottom"; "left"; "right"].
(* one scene: the axis ranges and the aspect ratio (x, y, z) [/repo/src/wulfric/_plotly_engine.py:132-144] *)
Record scene := Scene { s_at : Z * Z; s_lo : vec; s_hi : vec; s_aspect : vec }.
(* _update_fig_aspect_range /repo/src/wulfric/_plotly_engine.py:126-144.  A zero extent along z divides by zero: numpy gives inf or nan. *)
Definition scene_of (r : (Z * Z) * (vec * vec)) : res scene :=
  let '(p, (lo, hi)) := r in
  let lo := vscale (105 / 100) lo in
  let hi := vscale (105 / 100) hi in
  let d := vsub hi lo in
  if Reqb (vz d) 0 then Err NotANumber
  else Ok (Scene p lo hi (V3 (Rabs (vx d / vz d)) (Rabs (vy d / vz d)) 1)).
(* /repo/src/wulfric/_plotly_engine.py:146-181, 126-144 *)
Definition show (e : engine) (legend_position : string) : res (list scene) :=
  if mem (lower legend_position) LEGEND_POSITIONS then mapM scene_of (e_ranges e) else Err ValueError.
