(* M_Positions.v : model of /repo/src/wulfric/crystal/_basic_manipulation.py:27-319.
   atoms["positions"] is a list of 3-vectors of floats; the functions that modify atoms in
   place are modelled by the new value of atoms["positions"]. *)
From Verif Require Import Base M_Voronoi.
Open Scope R_scope.

(* component-wise np.minimum / np.maximum [/repo/src/wulfric/crystal/_basic_manipulation.py:89, 133] *)
Definition vmin (u v : vec) := V3 (Rmin (vx u) (vx v)) (Rmin (vy u) (vy v)) (Rmin (vz u) (vz v)).
(* /repo/src/wulfric/crystal/_basic_manipulation.py:90 *)
Definition vmax (u v : vec) := V3 (Rmax (vx u) (vx v)) (Rmax (vy u) (vy v)) (Rmax (vz u) (vz v)).

(* np.min(positions, axis=0); ValueError for an empty list [/repo/src/wulfric/crystal/_basic_manipulation.py:89] *)
Definition np_min (l : list vec) : res vec :=
  match l with [] => Err ValueError | p :: l' => Ok (fold_left vmin l' p) end.
(* /repo/src/wulfric/crystal/_basic_manipulation.py:90 *)
Definition np_max (l : list vec) : res vec :=
  match l with [] => Err ValueError | p :: l' => Ok (fold_left vmax l' p) end.

(* shift_atoms /repo/src/wulfric/crystal/_basic_manipulation.py:27-95 *)
Definition shift_atoms (positions : list vec) (gravity_point : vec) (gp_is_relative : bool)
  (cell : option mat) : res (list vec) :=
  do gp <- (if gp_is_relative then Ok gravity_point
            else match cell with
                 | None => Err ValueError
                 | Some c => do i <- minv c; Ok (vmat gravity_point i)
                 end);
  do lo <- np_min positions;
  do hi <- np_max positions;
  let shift := vscale (/ 2) (vadd hi lo) in
  Ok (map (fun p => vadd (vsub p shift) gp) positions).

(* cure_negative /repo/src/wulfric/crystal/_basic_manipulation.py:98-137.  numpy_rows: the rows of atoms["positions"] are numpy arrays (as
   opposed to plain python lists): with one plain-list row, list < int raises TypeError. *)
Definition cure1 (m : R) : R := if Rltb m 0 then - m else 0.
(* /repo/src/wulfric/crystal/_basic_manipulation.py:131-137 *)
Definition cure_negative (numpy_rows : bool) (positions : list vec) : res (list vec) :=
  match positions with
  | [] => Err IndexError
  | p :: l =>
      match l, numpy_rows with
      | [], false => Err TypeError
      | _, _ =>
          let m := fold_left vmin l p in
          let shift := V3 (cure1 (vx m)) (cure1 (vy m)) (cure1 (vz m)) in
          Ok (map (fun q => vadd q shift) positions)
      end
  end.

(* int(x) for a float: truncation towards zero [/repo/src/wulfric/crystal/_basic_manipulation.py:180] *)
Definition py_int (x : R) : Z := if Rltb x 0 then (- (Int_part (- x)))%Z else Int_part x.

(* ensure_000 /repo/src/wulfric/crystal/_basic_manipulation.py:140-186, one component *)
Definition wrap01 (x : R) : R :=
  let y := x - IZR (py_int x) in if Rltb y 0 then y + 1 else y.
(* /repo/src/wulfric/crystal/_basic_manipulation.py:175-186 *)
Definition ensure_000 (positions : list vec) : list vec :=
  map (fun p => V3 (wrap01 (vx p)) (wrap01 (vy p)) (wrap01 (vz p))) positions.

(* get_vector /repo/src/wulfric/crystal/_basic_manipulation.py:189-247; python indexing (negative indices count from the end) *)
Definition get_vector (cell : mat) (positions : list vec) (atom1 atom2 : Z) (r : zvec)
  (return_relative : bool) : res vec :=
  do p2 <- np_index positions atom2;
  do p1 <- np_index positions atom1;
  let v := vsub (vadd (ofZv r) p2) p1 in
  Ok (if return_relative then v else vmat v cell).

(* get_distance /repo/src/wulfric/crystal/_basic_manipulation.py:250-319 *)
Definition get_distance (cell : mat) (positions : list vec) (atom1 atom2 : Z) (r : zvec) : res R :=
  do v <- get_vector cell positions atom1 atom2 r false; Ok (norm v).
