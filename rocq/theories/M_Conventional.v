(* M_Conventional.v : model of /repo/src/wulfric/crystal/_conventional.py *)
From Verif Require Import Base M_Strings M_Dict M_Numerical M_Geometry M_Cell M_Niggli M_Atoms M_Spglib.
Open Scope string_scope.
Open Scope list_scope.
Open Scope R_scope.

(* matrix.T @ cell, for the integer matrices written in the code
   [/repo/src/wulfric/crystal/_conventional.py:81, 130, 207, 249, 311, 326, 342, 414, 466, 546, 594] *)
Definition tapply (k : zmat) (cell : mat) : mat := mmul (tr (ofZ k)) cell.
(* np.eye(3) [/repo/src/wulfric/crystal/_conventional.py:75, 91, 156, 233, 281, 316, 331, 376, 428, 510] *)
Definition eye : zmat := zid.
(* the matrices of the code, as they are written there
   [/repo/src/wulfric/crystal/_conventional.py:59-65, 176-182, 453-459, 586-592] *)
Definition cyc_231 : zmat := Zm 0 0 1  1 0 0  0 1 0.        (* -> a2, a3, a1 *)
(* /repo/src/wulfric/crystal/_conventional.py:67-73, 185-191, 285-291, 437-443 *)
Definition cyc_312 : zmat := Zm 0 1 0  0 0 1  1 0 0.        (* -> a3, a1, a2 *)
(* /repo/src/wulfric/crystal/_conventional.py:95-101, 334-340, 380-386, 534-540 *)
Definition flip_ab : zmat := Zm (-1) 0 0  0 (-1) 0  0 0 1.
(* /repo/src/wulfric/crystal/_conventional.py:106-112, 391-397, 524-530 *)
Definition flip_ac : zmat := Zm (-1) 0 0  0 1 0  0 0 (-1).
(* /repo/src/wulfric/crystal/_conventional.py:117-123, 402-408, 514-520 *)
Definition flip_bc : zmat := Zm 1 0 0  0 (-1) 0  0 0 (-1).

(* /repo/src/wulfric/crystal/_conventional.py:88-90, 373-375 "and" of three conditions *)
Definition andb3 (a b c : bool) : bool := a && b && c.

(* The choice of signs by the reciprocal angles, /repo/src/wulfric/crystal/_conventional.py:88-128 (HPKOT) and :373-413 (SC). *)
Definition sign_matrix (al be ga : R) : res zmat :=
  if andb3 (Rltb al 90) (Rltb be 90) (Rltb ga 90) || andb3 (Rleb 90 al) (Rleb 90 be) (Rleb 90 ga)
  then Ok eye
  else if andb3 (Rltb 90 al) (Rltb 90 be) (Rltb ga 90) || andb3 (Rleb al 90) (Rleb be 90) (Rleb 90 ga)
  then Ok flip_ab
  else if andb3 (Rltb 90 al) (Rltb be 90) (Rltb 90 ga) || andb3 (Rleb al 90) (Rleb 90 be) (Rleb ga 90)
  then Ok flip_ac
  else if andb3 (Rltb al 90) (Rltb 90 be) (Rltb 90 ga) || andb3 (Rleb 90 al) (Rleb be 90) (Rleb ga 90)
  then Ok flip_bc
  else Err PotentialBugError.

(* /repo/src/wulfric/crystal/_conventional.py:58-79 *)
Definition dots_matrix (dot_bc dot_ac dot_ab : R) : res zmat :=
  if Rleb dot_bc dot_ac && Rleb dot_bc dot_ab then Ok cyc_231
  else if Rleb dot_ac dot_bc && Rleb dot_ac dot_ab then Ok cyc_312
  else if Rleb dot_ab dot_ac && Rleb dot_ab dot_bc then Ok eye
  else Err PotentialBugError.

(* _hpkot_get_conventional_a :34-130.  get_niggli is called with its defaults
   (cell/_niggli.py: eps_relative=1e-5, implementation="spglib", max_iterations=100000). *)
Definition hpkot_conventional_a (niggli_reduce : option (mat -> R -> res mat)) (spglib_std_lattice : mat) : res mat :=
  do r_cell <- get_reciprocal spglib_std_lattice;
  do r1 <- get_niggli niggli_reduce r_cell (/ 100000) "spglib" 100000;
  do cell1 <- get_reciprocal r1;
  do m2 <- dots_matrix (Rabs (dot (row2 r1) (row3 r1)))
                       (Rabs (dot (row1 r1) (row3 r1)))
                       (Rabs (dot (row1 r1) (row2 r1)));
  let cell2 := tapply m2 cell1 in
  do r2 <- get_reciprocal cell2;
  do p <- get_params r2;
  do m3 <- sign_matrix (palpha p) (pbeta p) (pgamma p);
  Ok (tapply m3 cell2).

(* _sc_get_conventional_oPFI /repo/src/wulfric/crystal/_conventional.py:133-207 *)
Definition order_matrix (a b c : R) : res zmat :=
  if Rltb a b && Rltb b c then Ok eye
  else if Rltb a c && Rltb c b then Ok (Zm (-1) 0 0  0 0 (-1)  0 (-1) 0)
  else if Rltb b a && Rltb a c then Ok (Zm 0 (-1) 0  (-1) 0 0  0 0 (-1))
  else if Rltb b c && Rltb c a then Ok cyc_231
  else if Rltb c a && Rltb a b then Ok cyc_312
  else if Rltb c b && Rltb b a then Ok (Zm 0 0 (-1)  0 (-1) 0  (-1) 0 0)
  else Err PotentialBugError.
(* /repo/src/wulfric/crystal/_conventional.py:133-207 *)
Definition sc_conventional_oPFI (cell : mat) : res mat :=
  do p <- get_params cell;
  do m <- order_matrix (pa p) (pb p) (pc p);
  Ok (tapply m cell).

(* _sc_get_conventional_oC /repo/src/wulfric/crystal/_conventional.py:210-249 *)
Definition rot_ab : zmat := Zm 0 (-1) 0  1 0 0  0 0 1.      (* -> a2, -a1, a3 *)
(* /repo/src/wulfric/crystal/_conventional.py:210-249 *)
Definition sc_conventional_oC (cell : mat) : res mat :=
  do p <- get_params cell;
  do m <- (if Rltb (pa p) (pb p) then Ok eye
           else if Rltb (pb p) (pa p) then Ok rot_ab
           else Err PotentialBugError);
  Ok (tapply m cell).

(* _sc_get_conventional_m /repo/src/wulfric/crystal/_conventional.py:252-342 *)
Definition swap_bc : zmat := Zm (-1) 0 0  0 0 1  0 1 0.     (* -> -a1, a3, a2 *)
(* /repo/src/wulfric/crystal/_conventional.py:252-342 *)
Definition sc_conventional_m (cell : mat) (centring : string) (eps : R) : res mat :=
  do p <- get_params cell;
  do m1 <- (if cwt (pbeta p) CEq 90 eps && cwt (pgamma p) CEq 90 eps then Ok eye
            else if cwt (palpha p) CEq 90 eps && cwt (pbeta p) CEq 90 eps then
              (if String.eqb centring "C" then Err PotentialBugError else Ok cyc_312)
            else if cwt (palpha p) CEq 90 eps && cwt (pgamma p) CEq 90 eps then Ok rot_ab
            else Err PotentialBugError);
  let cell1 := tapply m1 cell in
  do p1 <- get_params cell1;
  let m2 := if Rleb (pb p1) (pc p1) || String.eqb centring "C" then eye else swap_bc in
  let cell2 := tapply m2 cell1 in
  do p2 <- get_params cell2;
  let m3 := if cwt (palpha p2) CLe 90 eps then eye else flip_ab in
  Ok (tapply m3 cell2).

(* _sc_get_conventional_a /repo/src/wulfric/crystal/_conventional.py:345-466 *)
Definition min3 (a b c : R) := Rmin (Rmin a b) c.
(* /repo/src/wulfric/crystal/_conventional.py:424 *)
Definition max3 (a b c : R) := Rmax (Rmax a b) c.
(* /repo/src/wulfric/crystal/_conventional.py:420-427, 429-436, 445-452 *)
Definition closest_to_90 (x al be ga eps : R) : bool :=
  (Reqb x (min3 al be ga) && cwt x CGe 90 eps) || (Reqb x (max3 al be ga) && cwt x CLe 90 eps).
(* /repo/src/wulfric/crystal/_conventional.py:345-466 *)
Definition sc_conventional_a (cell : mat) (eps : R) : res mat :=
  do r_cell <- get_reciprocal cell;
  do p <- get_params r_cell;
  do m1 <- sign_matrix (palpha p) (pbeta p) (pgamma p);
  let r1 := tapply m1 r_cell in
  do p1 <- get_params r1;
  let al := palpha p1 in let be := pbeta p1 in let ga := pgamma p1 in
  do m2 <- (if closest_to_90 ga al be ga eps then Ok eye
            else if closest_to_90 be al be ga eps then Ok cyc_312
            else if closest_to_90 al al be ga eps then Ok cyc_231
            else Err PotentialBugError);
  do cell1 <- get_reciprocal r1;
  Ok (tapply m2 cell1).

(* _sc_get_conventional_hR /repo/src/wulfric/crystal/_conventional.py:469-546 *)
Definition sc_conventional_hR (cell : mat) (angle_eps distance_eps : R) : res mat :=
  do p <- get_params cell;
  if cwt (pa p) CNe (pb p) distance_eps || cwt (pa p) CNe (pc p) distance_eps
     || cwt (pb p) CNe (pc p) distance_eps then Err PotentialBugError
  else
    let al := palpha p in let be := pbeta p in let ga := pgamma p in
    do m <- (if cwt al CEq be angle_eps && cwt al CEq ga angle_eps then Ok eye
             else if cwt (180 - al) CEq be angle_eps && cwt be CEq ga angle_eps then Ok flip_bc
             else if cwt al CEq (180 - be) angle_eps && cwt be CEq ga angle_eps then Ok flip_ac
             else if cwt al CEq be angle_eps && cwt be CEq (180 - ga) angle_eps then Ok flip_ab
             else Err PotentialBugError);
    Ok (tapply m cell).

(* _sc_get_conventional_no_hR /repo/src/wulfric/crystal/_conventional.py:549-615 *)
Definition sc_conventional_no_hR (cell : mat) (family centring : string) (eps : R) : res mat :=
  if mem family ["c"; "t"] || (String.eqb family "h" && String.eqb centring "P") then Ok cell
  else if String.eqb family "o" then
    if mem centring ["P"; "F"; "I"] then sc_conventional_oPFI cell
    else if String.eqb centring "C" then sc_conventional_oC cell
    else if String.eqb centring "A" then sc_conventional_oC (tapply cyc_231 cell)
    else Err PotentialBugError
  else if String.eqb family "m" then sc_conventional_m cell centring eps
  else if String.eqb family "a" then sc_conventional_a cell eps
  else Err PotentialBugError.

(* positions @ old_cell @ np.linalg.inv(new_cell)
   [/repo/src/wulfric/crystal/_conventional.py:739-743, 764-768, 785-789; crystal/_primitive.py:269-271] *)
Definition reexpress (ps : list vec) (old_cell new_cell : mat) : res (list vec) :=
  do i <- minv new_cell; Ok (map (fun p => vmat (vmat p old_cell) i) ps).

(* /repo/src/wulfric/crystal/_conventional.py:756-758, 778-780 cell, positions and types of the conventional cell *)
Definition spglib_angle_or_default (d : spglib_data) : R :=
  if Reqb (angle_tolerance d) (-1) then / 10000 else angle_tolerance d.
(* /repo/src/wulfric/crystal/_conventional.py:730-796 *)
Definition conventional_structure (niggli : option (mat -> R -> res mat)) (d : spglib_data) (convention : string)
  : res (mat * list vec * list Z) :=
  let convention := lower convention in
  if String.eqb convention "spglib" || String.eqb convention "hpkot" then
    if String.eqb convention "hpkot" && String.eqb (crystal_family d) "a" then
      do c <- hpkot_conventional_a niggli (conventional_cell d);
      do ps <- reexpress (conventional_positions d) (conventional_cell d) c;
      Ok (c, ps, conventional_types d)
    else Ok (conventional_cell d, conventional_positions d, conventional_types d)
  else if String.eqb convention "sc" then
    if String.eqb (crystal_family d) "h" && String.eqb (centring_type d) "R" then
      do c <- sc_conventional_hR (primitive_cell d) (spglib_angle_or_default d) (symprec d);
      do ps <- reexpress (primitive_positions d) (primitive_cell d) c;
      Ok (c, ps, primitive_types d)
    else
      do c <- sc_conventional_no_hR (conventional_cell d) (crystal_family d) (centring_type d) (spglib_angle_or_default d);
      do ps <- reexpress (conventional_positions d) (conventional_cell d) c;
      Ok (c, ps, conventional_types d)
  else Err ConventionNotSupported.

(* v[i] for an index that comes from enumerate [/repo/src/wulfric/crystal/_conventional.py:811] *)
Definition py_item (v : pyval) (i : nat) : res pyval :=
  match nth_error (elements v) i with Some x => Ok x | None => Err IndexError end.
(* {type_index: index for index, type_index in enumerate(types)} : the last index wins
   [/repo/src/wulfric/crystal/_conventional.py:802-804] *)
Fixpoint last_index (types : list Z) (i : nat) (t : Z) : option nat :=
  match types with
  | [] => None
  | t' :: l => match last_index l (S i) t with
               | Some j => Some j
               | None => if Z.eqb t t' then Some i else None
               end
  end.
(* :805-811 (and _primitive.py:296-301): for key in atoms: if key != "positions": ... *)
Fixpoint populate (mapping : Z -> option nat) (types : list Z) (todo : atoms_dict) (acc : atoms_dict) : res atoms_dict :=
  match todo with
  | [] => Ok acc
  | (key, v) :: d =>
      if String.eqb key "positions" then populate mapping types d acc
      else
        do l <- mapM (fun t => match mapping t with Some i => py_item v i | None => Err KeyError end) types;
        populate mapping types d (setitem key (PList l) acc)
  end.
(* :798-815 (and _primitive.py:287-305) *)
Definition make_atoms (mapping : Z -> option nat) (ps : list vec) (types : list Z) (atoms : atoms_dict) : res atoms_dict :=
  do new <- populate mapping types atoms [("positions", pos_val ps)];
  Ok (match lookup "spglib_types" new with
      | None => setitem "spglib_types" (PList (map PNpInt types)) new
      | Some _ => new
      end).

(* get_conventional /repo/src/wulfric/crystal/_conventional.py:618-817 *)
Definition lib_niggli (spglib : option spglib_module) : option (mat -> R -> res mat) :=
  match spglib with Some lib => Some (niggli_reduce lib) | None => None end.
(* /repo/src/wulfric/crystal/_conventional.py:618-817 *)
Definition get_conventional (spglib : option spglib_module) (cell : mat) (atoms : atoms_dict)
           (convention : string) (arg : data_arg) : res (mat * atoms_dict) :=
  do d <- obtain_data spglib cell atoms arg;
  do (c, ps, ts) <- conventional_structure (lib_niggli spglib) d convention;
  do new <- make_atoms (last_index (original_types d) 0) ps ts atoms;
  Ok (c, new).
