(* M_Spglib.v : model of /repo/src/wulfric/_spglib_interface.py:32-306, 390-453
   (SpglibData, validate_spglib_data, get_spglib_data).  get_spglib_types is in M_Atoms. *)
From Verif Require Import Base M_Strings M_Dict M_Geometry M_Atoms T_Tables.
Open Scope string_scope.
Open Scope list_scope.
Open Scope R_scope.

(* ---- the spglib library: an oracle ----
   What spglib.get_symmetry_dataset returns, restricted to the fields that are read (/repo/src/wulfric/_spglib_interface.py:98-127).
   Positions are (N, 3) arrays, types are numpy integers. *)
Record dataset := Dataset {
  ds_number : Z;
  ds_std_lattice : mat;
  ds_std_rotation_matrix : mat;
  ds_std_positions : list vec;
  ds_std_types : list Z }.
(* The installed module.  None: spglib found no symmetry.
   None from find_primitive cannot be unpacked (TypeError).
   [/repo/src/wulfric/_spglib_interface.py:33, 98, 130; cell/_niggli.py:360] *)
Record spglib_module := Spglib {
  get_symmetry_dataset : mat -> list vec -> list Z -> R -> R -> option dataset;
  find_primitive : mat -> list vec -> list Z -> R -> R -> option (mat * list vec * list Z);
  niggli_reduce : mat -> R -> res mat }.

(* ---- numpy conversions ---- *)
(* one entry of np.array(..., dtype=float).  Simplifications: a str is refused (numpy would parse
   "0.5"), None becomes nan, represented by the error NotANumber. [/repo/src/wulfric/_spglib_interface.py:87] *)
Definition to_float (v : pyval) : res R :=
  match v with
  | PInt z => Ok (IZR z)
  | PBool b => Ok (if b then 1 else 0)
  | PNpInt z => Ok (IZR z)
  | PFloat r => Ok r
  | PStr _ => Err ValueError
  | PNone => Err NotANumber
  | PList _ => Err ValueError
  end.
(* /repo/src/wulfric/_spglib_interface.py:87 *)
Definition to_row (v : pyval) : res vec :=
  match v with
  | PList [x; y; z] => do x <- to_float x; do y <- to_float y; do z <- to_float z; Ok (V3 x y z)
  | _ => Err ValueError
  end.
(* np.array(positions, dtype=float), for positions that passed validate_atoms
   [/repo/src/wulfric/_spglib_interface.py:87] *)
Definition positions_of (v : pyval) : res (list vec) := mapM to_row (elements v).
(* an (N, 3) array of floats as the value of a dictionary
   [/repo/src/wulfric/_spglib_interface.py:122-126; crystal/_conventional.py:799] *)
Definition pos_val (ps : list vec) : pyval :=
  PList (map (fun p => PList [PFloat (vx p); PFloat (vy p); PFloat (vz p)]) ps).
(* a validated list of types; True is the integer 1 [/repo/src/wulfric/_spglib_interface.py:98-99] *)
Definition int_of (v : pyval) : Z :=
  match v with PInt z => z | PNpInt z => z | PBool b => if b then 1%Z else 0%Z | _ => 0%Z end.
(* /repo/src/wulfric/_spglib_interface.py:98-99 *)
Definition ints (v : pyval) : list Z := map int_of (elements v).

(* ---- SpglibData /repo/src/wulfric/_spglib_interface.py:40-253 ---- *)
Record spglib_data := SpglibData {
  original_cell : mat;
  original_positions : list vec;
  original_types : list Z;
  symprec : R;
  angle_tolerance : R;
  space_group_number : Z;
  crystal_family : string;
  centring_type : string;
  conventional_cell : mat;
  conventional_positions : list vec;
  conventional_types : list Z;
  primitive_cell : mat;
  primitive_positions : list vec;
  primitive_types : list Z }.

(* __init__ /repo/src/wulfric/_spglib_interface.py:59-151 and get_spglib_data :390-453.  The handler :146-151 re-raises the same
   exception with a longer message.  cell is already a (3, 3) matrix (:70-79 not represented).
   add_sugar (:106-107, spglib <= 2.4.0) only changes the access syntax. *)
Definition get_spglib_data (spglib : option spglib_module) (cell : mat) (atoms : atoms_dict)
           (spglib_symprec spglib_angle_tolerance : R) : res spglib_data :=
  match spglib with
  | None => Err ImportError
  | Some lib =>
      do _ <- validate_atoms atoms ["positions"] true;
      do v <- getitem "positions" atoms;
      do ps <- positions_of v;
      do ts <- get_spglib_types atoms;
      let ts := ints ts in
      match get_symmetry_dataset lib cell ps ts spglib_symprec spglib_angle_tolerance with
      | None => Err RuntimeError
      | Some ds =>
          do family <- zgetitem (ds_number ds) CRYSTAL_FAMILY;
          do centring <- zgetitem (ds_number ds) CENTRING_TYPE;
          match find_primitive lib cell ps ts spglib_symprec spglib_angle_tolerance with
          | None => Err TypeError
          | Some (pcell, pps, pts) =>
              Ok {| original_cell := cell;
                    original_positions := ps;
                    original_types := ts;
                    symprec := spglib_symprec;
                    angle_tolerance := spglib_angle_tolerance;
                    space_group_number := ds_number ds;
                    crystal_family := family;
                    centring_type := centring;
                    conventional_cell := mmul (ds_std_lattice ds) (ds_std_rotation_matrix ds);
                    conventional_positions := ds_std_positions ds;
                    conventional_types := ds_std_types ds;
                    primitive_cell := mmul pcell (ds_std_rotation_matrix ds);
                    primitive_positions := pps;
                    primitive_types := pts |}
          end
      end
  end.
(* default tolerances /repo/src/wulfric/_spglib_interface.py:392-393 *)
Definition default_symprec : R := / 100000.
(* /repo/src/wulfric/_spglib_interface.py:59 *)
Definition default_spglib_angle : R := -1.

(* ---- validate_spglib_data /repo/src/wulfric/_spglib_interface.py:256-306 ---- *)
Fixpoint all2 {A B} (f : A -> B -> bool) (l : list A) (l' : list B) : bool :=
  match l, l' with
  | [], [] => true
  | x :: l, y :: l' => f x y && all2 f l l'
  | _, _ => false
  end.
(* np.allclose on (N, 3) and (M, 3) arrays with numpy broadcasting: a single row is repeated;
   other different lengths raise ValueError [/repo/src/wulfric/_spglib_interface.py:298] *)
Definition allclose_rows (ps qs : list vec) : res bool :=
  if Nat.eqb (length ps) (length qs) then Ok (all2 allclose ps qs)
  else match ps, qs with
       | [p], _ => Ok (forallb (allclose p) qs)
       | _, [q] => Ok (forallb (fun p => allclose p q) ps)
       | _, _ => Err ValueError
       end.
(* /repo/src/wulfric/_spglib_interface.py:293 *)
Definition allclose_mat (m n : mat) : bool :=
  allclose (row1 m) (row1 n) && allclose (row2 m) (row2 n) && allclose (row3 m) (row3 n).
(* /repo/src/wulfric/_spglib_interface.py:256-306 *)
Definition validate_spglib_data (cell : mat) (atoms : atoms_dict) (d : spglib_data) : res unit :=
  if negb (allclose_mat cell (original_cell d)) then Err ValueError
  else
    do v <- getitem "positions" atoms;
    do ps <- positions_of v;
    do same <- allclose_rows ps (original_positions d);
    if negb same then Err ValueError
    else
      do ts <- get_spglib_types atoms;
      if negb (all2 Z.eqb (ints ts) (original_types d)) then Err ValueError else Ok tt.

(* The argument spglib_data=... of the functions that use it. [/repo/src/wulfric/crystal/_conventional.py:718-727] *)
Inductive data_arg := NoData | OtherObject | Data (d : spglib_data).
(* The same lines open get_conventional (crystal/_conventional.py:715-727), get_primitive
   (crystal/_primitive.py:232-244), sc_get_variation (crystal/_sc_variation.py:373-385),
   hpkot_get_extended_bl_symbol (crystal/_hpkot_extended_bl_symbol.py:111-123) and
   get_path_and_points (kpoints/_path_and_points.py:257-269). *)
Definition obtain_data (spglib : option spglib_module) (cell : mat) (atoms : atoms_dict) (arg : data_arg) : res spglib_data :=
  do _ <- validate_atoms atoms ["positions"] true;
  match arg with
  | NoData => get_spglib_data spglib cell atoms default_symprec default_spglib_angle
  | OtherObject => Err TypeError
  | Data d => do _ <- validate_spglib_data cell atoms d; Ok d
  end.
