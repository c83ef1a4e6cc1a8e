(* M_Voronoi.v : model of /repo/src/wulfric/cell/_voronoi.py *)
From Verif Require Import Base M_Geometry M_Cell.
Open Scope Z_scope.

(* numpy.arange(lo, hi) for integers [/repo/src/wulfric/cell/_voronoi.py:76-78] *)
Fixpoint zseq (lo : Z) (n : nat) : list Z :=
  match n with O => [] | S n' => lo :: zseq (lo + 1) n' end.
(* /repo/src/wulfric/cell/_voronoi.py:76-78 *)
Definition arange (lo hi : Z) : list Z := zseq lo (Z.to_nat (hi - lo)).

(* _voronoi.py:77-83: meshgrid(..., indexing="ij") transposed to (N1, N2, N3, 3) *)
Definition grid (r1 r2 r3 : Z) : list (list (list zvec)) :=
  map (fun i => map (fun j => map (fun k => Zv i j k) (arange (- r3) (r3 + 1)))
                    (arange (- r2) (r2 + 1)))
      (arange (- r1) (r1 + 1)).

(* relative=True keeps the integers, otherwise "@ cell" (lines 85-86) [/repo/src/wulfric/cell/_voronoi.py:84-85] *)
Definition to_out (cell : mat) (relative : bool) (v : zvec) : vec :=
  if relative then ofZv v else vmat (ofZv v) cell.

(* _voronoi.py:35-90 with flat=False *)
Definition get_lattice_points_grid (cell : mat) (r1 r2 r3 : Z) (relative : bool)
  : list (list (list vec)) :=
  map (map (map (to_out cell relative))) (grid r1 r2 r3).

(* _voronoi.py:35-90 with flat=True.  numpy.reshape to (N1*N2*N3, 3) fails unless the
   number of elements fits; -1 means "infer". *)
Definition get_lattice_points (cell : mat) (r1 r2 r3 : Z) (relative : bool) : res (list vec) :=
  let pts := concat (concat (get_lattice_points_grid cell r1 r2 r3 relative)) in
  let N := (2 * r1 + 1) * (2 * r2 + 1) * (2 * r3 + 1) in
  if (N =? -1) || (N =? Z.of_nat (length pts)) then Ok pts else Err ValueError.

(* scipy.spatial.Voronoi: external.  Only the three attributes that are read.
   [/repo/src/wulfric/cell/_voronoi.py:120, 126, 143] *)
Record voronoi := Vor {
  vor_vertices : list vec;
  ridge_vertices : list (list Z);
  ridge_points : list (Z * Z)
}.

(* /repo/src/wulfric/cell/_voronoi.py:129-132 *)
Definition zpair_eqb (a b : Z * Z) : bool := (fst a =? fst b) && (snd a =? snd b).
(* /repo/src/wulfric/cell/_voronoi.py:129-132 *)
Definition mem_pair (e : Z * Z) (l : list (Z * Z)) : bool := existsb (zpair_eqb e) l.

(* rv[j-1], rv[j] for j = 0 .. len(rv)-1; rv[-1] is the last element [/repo/src/wulfric/cell/_voronoi.py:128-133] *)
Definition cyclic_pairs (rv : list Z) : list (Z * Z) := combine (last rv 0 :: rv) rv.

(* _voronoi.py:128-133 *)
Fixpoint add_edges (ps : list (Z * Z)) (acc : list (Z * Z)) : list (Z * Z) :=
  match ps with
  | [] => acc
  | (a, b) :: ps' =>
      if negb (mem_pair (a, b) acc) && negb (mem_pair (b, a) acc)
      then add_edges ps' (acc ++ [(a, b)]) else add_edges ps' acc
  end.
(* /repo/src/wulfric/cell/_voronoi.py:127 *)
Definition qualifies (index_000 : Z) (rv : list Z) (rp : Z * Z) : bool :=
  negb (existsb (Z.eqb (-1)) rv) && ((fst rp =? index_000) || (snd rp =? index_000)).
(* _voronoi.py:126-133; a python set is modelled by the list of its elements in
   insertion order (simplification: the iteration order of the set is not specified) *)
Fixpoint collect (index_000 : Z) (rvs : list (list Z * (Z * Z))) (acc : list (Z * Z)) : list (Z * Z) :=
  match rvs with
  | [] => acc
  | (rv, rp) :: rest =>
      collect index_000 rest (if qualifies index_000 rv rp then add_edges (cyclic_pairs rv) acc else acc)
  end.

(* numpy.unique: sorted distinct values [/repo/src/wulfric/cell/_voronoi.py:135] *)
Fixpoint insert_sorted (x : Z) (l : list Z) : list Z :=
  match l with
  | [] => [x]
  | y :: l' => if x <? y then x :: l else if x =? y then l else y :: insert_sorted x l'
  end.
(* /repo/src/wulfric/cell/_voronoi.py:135 *)
Definition unique (l : list Z) : list Z := fold_right insert_sorted [] l.

(* position of a value: the dict {v_index: index} [/repo/src/wulfric/cell/_voronoi.py:136-138] *)
Fixpoint index_of (x : Z) (l : list Z) : option nat :=
  match l with
  | [] => None
  | y :: l' => if x =? y then Some O else option_map S (index_of x l')
  end.
(* /repo/src/wulfric/cell/_voronoi.py:141-142 *)
Definition dict_index (x : Z) (l : list Z) : res nat :=
  match index_of x l with Some i => Ok i | None => Err KeyError end.

(* numpy integer indexing of the first axis [/repo/src/wulfric/cell/_voronoi.py:143] *)
Definition np_index {A} (l : list A) (i : Z) : res A :=
  let n := Z.of_nat (length l) in
  let j := if i <? 0 then i + n else i in
  if (j <? 0) || (n <=? j) then Err IndexError
  else match nth_error l (Z.to_nat j) with Some a => Ok a | None => Err IndexError end.

(* _voronoi.py:112-113 with n = 10 *)
Definition index_000 : Z := ((2 * 10 + 1) ^ 3 - 1) / 2.

(* _voronoi.py:134-143.  With no edges numpy.unique of an empty (float) array is used as
   an index, which raises IndexError. *)
Definition finish (v : voronoi) (edges_index : list (Z * Z)) : res (list vec * list (nat * nat)) :=
  match edges_index with
  | [] => Err IndexError
  | _ =>
      let ids := unique (flat_map (fun e => [fst e; snd e]) edges_index) in
      do edges <- mapM (fun e => do i <- dict_index (fst e) ids;
                                 do j <- dict_index (snd e) ids; Ok (i, j)) edges_index;
      do verts <- mapM (np_index (vor_vertices v)) ids;
      Ok (verts, edges)
  end.

(* _voronoi.py:93-143; None: scipy is not installed *)
Definition get_voronoi_cell (Voronoi : option (list vec -> voronoi)) (cell : mat)
  : res (list vec * list (nat * nat)) :=
  match Voronoi with
  | None => Err ImportError
  | Some vor =>
      do pts <- get_lattice_points cell 10 10 10 false;
      let v := vor pts in
      finish v (collect index_000 (combine (ridge_vertices v) (ridge_points v)) [])
  end.

(* _voronoi.py:146-168 and 171-193 *)
Definition get_wigner_seitz_cell V cell := get_voronoi_cell V cell.
(* /repo/src/wulfric/cell/_voronoi.py:171-193 *)
Definition get_brillouin_zone V cell :=
  do r <- get_reciprocal cell; get_voronoi_cell V r.
