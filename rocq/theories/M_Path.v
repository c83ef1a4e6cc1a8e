(* M_Path.v : /repo/src/wulfric/kpoints/: choice of the table of high-symmetry points and
   get_path_and_points; Kpoints.from_crystal. *)
From Verif Require Import Base M_Strings M_Dict M_Numerical M_Geometry M_Cell M_Niggli M_Atoms T_Tables T_Points M_Spglib M_Conventional
  M_Primitive M_Variation M_Kpoints.
Open Scope string_scope.
Open Scope list_scope.
Open Scope R_scope.

(* _hpkot_points.py _hpkot_get_points :481-564 *)
Definition hpkot_get_points (conventional_cell : mat) (lattice_type symbol : string) : res (dict vec) :=
  do p <- get_params conventional_cell;
  let a := pa p in let b := pb p in let c := pc p in let beta := pbeta p in
  if mem symbol ["cP1"; "cP2"] then hpkot_table_69
  else if mem symbol ["cF1"; "cF2"] then hpkot_table_70
  else if String.eqb symbol "cI1" then hpkot_table_71
  else if String.eqb symbol "tP1" then hpkot_table_72
  else if String.eqb symbol "tI1" then hpkot_table_73 a c
  else if String.eqb symbol "tI2" then hpkot_table_74 a c
  else if String.eqb symbol "oP1" then hpkot_table_75
  else if String.eqb symbol "oF1" then hpkot_table_76 a b c
  else if String.eqb symbol "oF2" then hpkot_table_77 a b c
  else if String.eqb symbol "oF3" then hpkot_table_78 a b c
  else if String.eqb symbol "oI1" then hpkot_table_79 a b c
  else if String.eqb symbol "oI2" then hpkot_table_80 a b c
  else if String.eqb symbol "oI3" then hpkot_table_81 a b c
  else if String.eqb symbol "oC1" then hpkot_table_82 a b c lattice_type
  else if String.eqb symbol "oC2" then hpkot_table_83 a b c lattice_type
  else if String.eqb symbol "oA1" then hpkot_table_82 a b c lattice_type
  else if String.eqb symbol "oA2" then hpkot_table_83 a b c lattice_type
  else if mem symbol ["hP1"; "hP2"] then hpkot_table_84
  else if String.eqb symbol "hR1" then hpkot_table_85 a c
  else if String.eqb symbol "hR2" then hpkot_table_86 a c
  else if String.eqb symbol "mP1" then hpkot_table_87 a c beta
  else if String.eqb symbol "mC1" then hpkot_table_88 a b c beta
  else if String.eqb symbol "mC2" then hpkot_table_89 a b c beta
  else if String.eqb symbol "mC3" then hpkot_table_90 a b c beta
  else if String.eqb symbol "aP2" then hpkot_table_91
  else if String.eqb symbol "aP3" then hpkot_table_92
  else Err PotentialBugError.

(* _sc_points.py _sc_get_points :389-480.  The variation may be None (see sc_get_variation), which is
   equal to no string. *)
Definition is_variation (v : option string) (s : string) : bool :=
  match v with Some v => String.eqb v s | None => false end.
(* /repo/src/wulfric/kpoints/_sc_points.py:389-480 *)
Definition one_of (v : option string) (l : list string) : bool := existsb (is_variation v) l.
(* /repo/src/wulfric/kpoints/_sc_points.py:389-480 *)
Definition sc_get_points (conventional_cell : mat) (lattice_type : string) (v : option string) : res (dict vec) :=
  do p <- get_params conventional_cell;
  let a := pa p in let b := pb p in let c := pc p in let alpha := palpha p in
  match lookup lattice_type SC_BRAVAIS_LATTICE_SHORT_NAMES with
  | None => Err PotentialBugError
  | Some lt =>
      if String.eqb lt "CUB" then sc_table_2
      else if String.eqb lt "FCC" then sc_table_3
      else if String.eqb lt "BCC" then sc_table_4
      else if String.eqb lt "TET" then sc_table_5
      else if String.eqb lt "BCT" then
        if is_variation v "BCT1" then sc_table_6 a c
        else if is_variation v "BCT2" then sc_table_7 a c
        else Err PotentialBugError
      else if String.eqb lt "ORC" then sc_table_8
      else if String.eqb lt "ORCF" then
        if one_of v ["ORCF1"; "ORCF3"] then sc_table_9 a b c
        else if is_variation v "ORCF2" then sc_table_10 a b c
        else Err PotentialBugError
      else if String.eqb lt "ORCI" then sc_table_11 a b c
      else if String.eqb lt "ORCC" then sc_table_12 a b
      else if String.eqb lt "HEX" then sc_table_13
      else if String.eqb lt "RHL" then
        if is_variation v "RHL1" then sc_table_14 alpha
        else if is_variation v "RHL2" then sc_table_15 alpha
        else Err PotentialBugError
      else if String.eqb lt "MCL" then sc_table_16 b c alpha
      else if String.eqb lt "MCLC" then
        if one_of v ["MCLC1"; "MCLC2"] then sc_table_17 a b c alpha
        else if one_of v ["MCLC3"; "MCLC4"] then sc_table_18 a b c alpha
        else if is_variation v "MCLC5" then sc_table_19 a b c alpha
        else Err PotentialBugError
      else if String.eqb lt "TRI" then
        if one_of v ["TRI1a"; "TRI2a"] then sc_table_20
        else if one_of v ["TRI1b"; "TRI2b"] then sc_table_21
        else Err PotentialBugError
      else Err PotentialBugError
  end.

(* _path_and_points.py get_path_and_points :275-334 *)
(* hs_points[point] for all points, in Cartesian coordinates and then (relative) in the basis of the
   reciprocal of the given cell; both matrices are the same for every point, hence computed once here
   (there is always a point, "GAMMA"). [/repo/src/wulfric/kpoints/_path_and_points.py:304-314] *)
Definition place_points (primitive_rcell cell : mat) (relative : bool) (points : dict vec) : res (dict vec) :=
  do back <- (if relative then do rcell <- get_reciprocal cell; minv rcell else Ok mid);
  Ok (map (fun kv => (fst kv, let absolute := vmat (snd kv) primitive_rcell in
                              if relative then vmat absolute back else absolute)) points).
(* /repo/src/wulfric/kpoints/_path_and_points.py:316-332 *)
Definition prime (name : string) : string := if String.eqb name "GAMMA" then name else String.append name "_P".
(* /repo/src/wulfric/kpoints/_path_and_points.py:321-326 *)
Definition extend_path (kpath : string) : res string :=
  do l <- get_path_as_list kpath;
  Ok (String.append kpath (String.append "|" (get_path_as_string (map (map prime) l)))).
(* /repo/src/wulfric/kpoints/_path_and_points.py:329-332 *)
Definition extend_points (points : dict vec) : dict vec :=
  fold_left (fun d kv => if String.eqb (fst kv) "GAMMA" then d else setitem (String.append (fst kv) "_P") (vneg (snd kv)) d) points points.
(* /repo/src/wulfric/kpoints/_path_and_points.py:290 *)
Definition lookup_path (v : option string) : res string :=
  match v with Some v => getitem v SC_DEFAULT_K_PATHS | None => Err KeyError end.
(* /repo/src/wulfric/kpoints/_path_and_points.py:144-334 *)
Definition get_path_and_points (spglib : option spglib_module) (cell : mat) (atoms : atoms_dict) (arg : data_arg) (convention : string)
  (with_time_reversal relative : bool) : res (string * dict vec) :=
  do d <- obtain_data spglib cell atoms arg;
  do (conventional_cell, _) <- get_conventional spglib cell atoms convention (Data d);
  do (primitive_cell, _) <- get_primitive spglib cell atoms convention (Data d);
  let convention := lower convention in
  do (points, kpath) <-
    (if String.eqb convention "sc" then
       do v <- sc_get_variation spglib cell atoms (Data d);
       do points <- sc_get_points conventional_cell (lattice_type d) v;
       do kpath <- lookup_path v;
       Ok (points, kpath)
     else if String.eqb convention "hpkot" then
       do s <- hpkot_get_extended_bl_symbol spglib cell atoms (Data d);
       do points <- hpkot_get_points conventional_cell (lattice_type d) s;
       do kpath <- getitem s HPKOT_DEFAULT_K_PATHS;
       Ok (points, kpath)
     else Err ConventionNotSupported);
  do primitive_rcell <- get_reciprocal primitive_cell;
  do points <- place_points primitive_rcell cell relative points;
  do inversion <- zgetitem (space_group_number d) INVERSION_SYMMETRY;
  if negb inversion && negb with_time_reversal then
    do kpath <- extend_path kpath;
    Ok (kpath, extend_points points)
  else Ok (kpath, points).

(* _kpoints_class.py Kpoints.from_crystal :222-240 *)
Definition from_crystal (spglib : option spglib_module) (cell : mat) (atoms : atoms_dict) (convention : string) (with_time_reversal : bool)
  (n : Z) (arg : data_arg) : res kpoints :=
  do (path, points) <- get_path_and_points spglib cell atoms arg convention with_time_reversal true;
  do labels <- mapM (fun name => getitem name HS_PLOT_NAMES) (keys points);
  do rcell <- get_reciprocal cell;
  init rcell (map snd points) (Some (keys points)) (Some labels) (Some (PathStr path)) n.
