(* M_Lepage.v : model of /repo/src/wulfric/_lepage.py *)
From Verif Require Import Base M_Numerical M_Geometry M_Cell M_Niggli M_Voronoi.
Open Scope R_scope.

(* integer indices of an axis [/repo/src/wulfric/_lepage.py:353] *)
Definition zdot (u v : zvec) : Z := (zx u * zx v + zy u * zy v + zz u * zz v)%Z.
(* /repo/src/wulfric/_lepage.py:370-373 *)
Definition zvec_eqb (u v : zvec) : bool := ((zx u =? zx v) && (zy u =? zy v) && (zz u =? zz v))%Z.
(* /repo/src/wulfric/_lepage.py:371-373 *)
Definition zscale (k : Z) (u : zvec) : zvec := Zv (k * zx u) (k * zy u) (k * zz u).
(* /repo/src/wulfric/_lepage.py:203 *)
Definition zadd (u v : zvec) : zvec := Zv (zx u + zx v) (zy u + zy v) (zz u + zz v).
(* /repo/src/wulfric/_lepage.py:68, 143, 197, 254 *)
Definition zdet3 (u v w : zvec) : Z :=
  (zx u * (zy v * zz w - zz v * zy w) - zy u * (zx v * zz w - zz v * zx w)
   + zz u * (zx v * zy w - zy v * zx w))%Z.

(* stable sort by a real key (python's sort / numpy.sort) *)
Section Sort.
  Context {A : Type} (key : A -> R).
  (* /repo/src/wulfric/_lepage.py:139, 236, 364 *)
  Fixpoint insert_by (x : A) (l : list A) : list A :=
    match l with
    | [] => [x]
    | y :: l' => if Rleb (key x) (key y) then x :: l else y :: insert_by x l'
    end.
  (* /repo/src/wulfric/_lepage.py:139, 236, 364 list.sort(key=...), stable *)
  Definition sort_by (l : list A) : list A := fold_right insert_by [] l.
End Sort.
(* /repo/src/wulfric/_lepage.py:59, 65 np.sort *)
Definition sort_r : list R -> list R := sort_by (fun x => x).

(* one entry of the list "axes": [U, t/|t|, abs(U@h), delta]; the third item is never
   read and is left out [/repo/src/wulfric/_lepage.py:361] *)
Record axis := Axis { ax_U : zvec; ax_t : vec; ax_delta : R }.

(* /repo/src/wulfric/_lepage.py:59-61 *)
Fixpoint all_close (l m : list R) (tol : R) : bool :=
  match l, m with
  | [], [] => true
  | a :: l', b :: m' => Rltb (Rabs (a - b)) tol && all_close l' m' tol
  | _, _ => false
  end.
(* angles[:k, :k] [/repo/src/wulfric/_lepage.py:56, 96, 125, 166, 190] *)
Definition sub_square (k : nat) (angles : list (list R)) : list (list R) :=
  map (firstn k) (firstn k angles).
(* (np.abs(np.sort(sub.flatten()) - np.sort(target.flatten())) < tol).all()
   [/repo/src/wulfric/_lepage.py:58-61, 97-100, 127-130, 167-170, 192-195] *)
Definition matches (sub target : list (list R)) (tol : R) : bool :=
  all_close (sort_r (concat sub)) (sort_r (concat target)) tol.

(* return value of the check functions: (Some name, False) or (None, True) [/repo/src/wulfric/_lepage.py:75-77] *)
Definition check := res (option string).

(* _lepage.py:36-77 *)
Definition cub_row_1 := [0; 45; 45; 45; 45; 90; 90; 90; 90].
(* /repo/src/wulfric/_lepage.py:42-47 *)
Definition cub_row_2 := [0; 45; 45; 60; 60; 60; 60; 90; 90].
(* /repo/src/wulfric/_lepage.py:37-49 *)
Definition cub_target :=
  [cub_row_1; cub_row_1; cub_row_1; cub_row_2; cub_row_2; cub_row_2; cub_row_2; cub_row_2; cub_row_2].
(* /repo/src/wulfric/_lepage.py:62-67, 131-138 *)
Definition select (p : list R -> bool) (sub : list (list R)) (us : list zvec) : list zvec :=
  map snd (filter (fun q => p (fst q)) (combine sub us)).
(* /repo/src/wulfric/_lepage.py:36-77 *)
Definition check_cub (angles : list (list R)) (axes : list axis) (tol : R) : check :=
  if Nat.leb 9 (length angles) then
    let sub := sub_square 9 angles in
    let us := firstn 9 (map ax_U axes) in
    if matches sub cub_target tol then
      match select (fun row => all_close (sort_r row) cub_row_1 tol) sub us with
      | [u; v; w] =>
          let det := Z.abs (zdet3 u v w) in
          if (det =? 1)%Z then Ok (Some "CUB"%string)
          else if (det =? 4)%Z then Ok (Some "FCC"%string)
          else if (det =? 2)%Z then Ok (Some "BCC"%string)
          else Err UnboundLocalError
      | _ => Err LinAlgError (* numpy.linalg.det of a non-square array *)
      end
    else Ok None
  else Ok None.

(* _lepage.py:83-103 *)
Definition hex_row := [0; 30; 30; 60; 60; 90; 90].
(* /repo/src/wulfric/_lepage.py:84-94 *)
Definition hex_target :=
  [[0; 90; 90; 90; 90; 90; 90]; hex_row; hex_row; hex_row; hex_row; hex_row; hex_row].
(* /repo/src/wulfric/_lepage.py:83-103 *)
Definition check_hex (angles : list (list R)) (tol : R) : check :=
  if Nat.leb 7 (length angles) then
    if matches (sub_square 7 angles) hex_target tol then Ok (Some "HEX"%string) else Ok None
  else Ok None.

(* _lepage.py:109-150 *)
Definition tet_row_1 := [0; 90; 90; 90; 90].
(* /repo/src/wulfric/_lepage.py:113-116 *)
Definition tet_row_2 := [0; 45; 45; 90; 90].
(* /repo/src/wulfric/_lepage.py:110-118 *)
Definition tet_target := [tet_row_1; tet_row_2; tet_row_2; tet_row_2; tet_row_2].
(* /repo/src/wulfric/_lepage.py:109-150 *)
Definition check_tet (angles : list (list R)) (axes : list axis) (tol : R) (cell : mat) : check :=
  if Nat.leb 5 (length angles) then
    let sub := sub_square 5 angles in
    let us := firstn 5 (map ax_U axes) in
    if matches sub tet_target tol then
      let is_z row := all_close (sort_r row) tet_row_1 tol in
      let zs := select is_z sub us in
      let xy := sort_by (fun u => norm (vmat (ofZv u) cell)) (select (fun row => negb (is_z row)) sub us) in
      match xy, rev zs with
      | x :: y :: _, z :: _ =>
          let det := Z.abs (zdet3 x y z) in
          if (det =? 1)%Z then Ok (Some "TET"%string)
          else if (det =? 2)%Z then Ok (Some "BCT"%string)
          else Err UnboundLocalError
      | _ :: _ :: _, [] => Err UnboundLocalError
      | _, _ => Err IndexError
      end
    else Ok None
  else Ok None.

(* _lepage.py:156-173 *)
Definition rhl_target := [[0; 60; 60]; [0; 60; 60]; [0; 60; 60]].
(* /repo/src/wulfric/_lepage.py:156-173 *)
Definition check_rhl (angles : list (list R)) (tol : R) : check :=
  if Nat.leb 3 (length angles) then
    if matches (sub_square 3 angles) rhl_target tol then Ok (Some "RHL"%string) else Ok None
  else Ok None.

(* _lepage.py:179-220; the inner gcd is Euclid's loop on non-negative integers: Z.gcd *)
Definition orc_target := [[0; 90; 90]; [0; 90; 90]; [0; 90; 90]].
(* /repo/src/wulfric/_lepage.py:179-220 *)
Definition check_orc (angles : list (list R)) (axes : list axis) (tol : R) : check :=
  if Nat.leb 3 (length angles) then
    if matches (sub_square 3 angles) orc_target tol then
      match firstn 3 (map ax_U axes) with
      | [u; v; w] =>
          let det := Z.abs (zdet3 u v w) in
          if (det =? 1)%Z then Ok (Some "ORC"%string)
          else if (det =? 4)%Z then Ok (Some "ORCF"%string)
          else if (det =? 2)%Z then
            let s := zadd u (zadd v w) in
            if ((1 <? Z.gcd (zx s) (zy s)) && (1 <? Z.gcd (zx s) (zz s)) && (1 <? Z.gcd (zy s) (zz s)))%Z
            then Ok (Some "ORCI"%string) else Ok (Some "ORCC"%string)
          else Err UnboundLocalError
      | _ => Err LinAlgError
      end
    else Ok None
  else Ok None.

(* np.indices((2k+1,)*3) - k, transposed and reshaped to a list of triples [/repo/src/wulfric/_lepage.py:229, 349] *)
Definition miller (k : Z) : list zvec := concat (concat (grid k k k)).

(* _lepage.py:226-239 *)
Definition perpendicular (v : zvec) (cell : mat) (tol : R) : list zvec :=
  sort_by (fun x => norm (vmat (ofZv x) cell))
    (filter (fun i => negb (zvec_eqb i (Zv 0 0 0))
                      && Rltb (Rabs (dot (vmat (ofZv i) cell) (vmat (ofZv v) cell))) tol) (miller 1)).
(* /repo/src/wulfric/_lepage.py:226-239 *)
Definition get_perpendicular_shortest (v : zvec) (cell : mat) (tol : R) : res (zvec * zvec) :=
  match perpendicular v cell tol with
  | a :: _ :: c :: _ => Ok (a, c)
  | _ => Err IndexError
  end.

(* _lepage.py:242-260; "angles = angles[:1]" keeps at most one row *)
Definition check_mcl (axes : list axis) (tol : R) (cell : mat) : check :=
  match axes with
  | [] => Ok None
  | b :: _ =>
      match get_perpendicular_shortest (ax_U b) cell tol with
      | Err _ => Ok None
      | Ok (a, c) =>
          let det := Z.abs (zdet3 a (ax_U b) c) in
          if (det =? 1)%Z then Ok (Some "MCL"%string)
          else if (det =? 2)%Z then Ok (Some "MCLC"%string)
          else Ok None
      end
  end.

(* _lepage.py:409-438, the sequence of checks of one pass *)
Definition or_else (r : check) (k : check) : check :=
  match r with Ok None => k | _ => r end.
(* /repo/src/wulfric/_lepage.py:408-437 *)
Definition classify (angles : list (list R)) (axes : list axis) (tol : R) (cell : mat) : res string :=
  do r <- or_else (check_cub angles axes tol) (or_else (check_hex angles tol)
          (or_else (check_tet angles axes tol cell) (or_else (check_rhl angles tol)
          (or_else (check_orc angles axes tol) (check_mcl axes tol cell)))));
  match r with Some s => Ok s | None => Ok "TRI"%string end.

(* _lepage.py:439-444: the last axis and all that tie with it are dropped; the list is
   handled back to front *)
Fixpoint drop_ties (r : list axis) : list axis :=
  match r with
  | a :: r' => match r' with
               | b :: _ => if Reqb (ax_delta a) (ax_delta b) then drop_ties r' else r
               | [] => r
               end
  | [] => r
  end.
(* /repo/src/wulfric/_lepage.py:439-445 *)
Definition drop_worst (axes : list axis) : list axis := rev (tl (drop_ties (rev axes))).

(* /repo/src/wulfric/_lepage.py:403-406 *)
Definition max_delta (axes : list axis) : R := fold_right (fun a m => Rmax (ax_delta a) m) 0 axes.

(* _lepage.py:402-447.  [fuel] makes the recursion structural; running out of it is
   UnexpectedError, shown impossible. max_delta: delta >= 0 always, and 0 for no axes *)
Fixpoint lepage_loop (fuel : nat) (axes : list axis) (angles : list (list R)) (tol : R) (cell : mat)
  : res (list string) :=
  match fuel with
  | O => Err UnexpectedError
  | S fuel' =>
      let delta := max_delta axes in
      do result <- classify angles axes tol cell;
      let axes' := drop_worst axes in
      let angles' := sub_square (length axes') angles in
      if Rltb tol delta then
        do results <- lepage_loop fuel' axes' angles' tol cell; Ok (result :: results)
      else Ok [result]
  end.

(* _lepage.py:354-359 *)
Definition axis_delta (cell rcell : mat) (U h : zvec) : R :=
  let t := vmat (ofZv U) cell in
  let tau := vmat (ofZv h) rcell in
  atan (norm (cross t tau) / Rabs (dot t tau)) * TODEGREES.

(* _lepage.py:349-362; division by zero (t = 0 or t @ tau = 0) would give NaN *)
Definition candidate (cell rcell : mat) (limit : R) (U h : zvec) : res (list axis) :=
  if (Z.abs (zdot U h) =? 2)%Z then
    let t := vmat (ofZv U) cell in
    let tau := vmat (ofZv h) rcell in
    if Reqb (dot t tau) 0 || Reqb (norm t) 0 then Err NotANumber else
    let delta := axis_delta cell rcell U h in
    if Rltb delta limit then Ok [Axis U (vscale (/ norm t) t) delta] else Ok []
  else Ok [].
(* /repo/src/wulfric/_lepage.py:351-361 *)
Definition candidates (cell rcell : mat) (limit : R) : res (list axis) :=
  do r <- mapM (fun p => candidate cell rcell limit (fst p) (snd p))
               (flat_map (fun U => map (fun h => (U, h)) (miller 2)) (miller 2));
  Ok (concat r).

(* _lepage.py:365-384: an axis is dropped when a later one is equal, opposite, half or
   double; {0, 2}-axes are halved *)
Definition related (a b : zvec) : bool :=
  zvec_eqb a b || zvec_eqb a (zscale (-1) b) || zvec_eqb a (zscale 2 b) || zvec_eqb (zscale 2 a) b.
(* /repo/src/wulfric/_lepage.py:380 *)
Definition only_0_2 (u : zvec) : bool :=
  let l := [zx u; zy u; zz u] in
  (forallb (fun c => (c =? 0) || (c =? 2)) l && existsb (Z.eqb 0) l && existsb (Z.eqb 2) l)%Z.
(* /repo/src/wulfric/_lepage.py:380-381 *)
Definition halve (a : axis) : axis :=
  if only_0_2 (ax_U a)
  then Axis (Zv (zx (ax_U a) / 2) (zy (ax_U a) / 2) (zz (ax_U a) / 2)) (ax_t a) (ax_delta a)
  else a.
(* /repo/src/wulfric/_lepage.py:365-383 *)
Fixpoint dedup (axes : list axis) : list axis :=
  match axes with
  | [] => []
  | a :: l => if existsb (fun b => related (ax_U a) (ax_U b)) l then dedup l else halve a :: dedup l
  end.

(* _lepage.py:386-395; "angles += angles.T" doubles the diagonal *)
Definition axes_angle (a b : axis) : R := acos (Rabs (clip (dot (ax_t a) (ax_t b)) (-1) 1)) * TODEGREES.
(* /repo/src/wulfric/_lepage.py:386-394 *)
Definition angles_of (axes : list axis) : list (list R) :=
  let ia := combine (seq 0 (length axes)) axes in
  map (fun p => map (fun q =>
    if Nat.eqb (fst p) (fst q) then axes_angle (snd p) (snd q) + axes_angle (snd p) (snd q)
    else if Nat.ltb (fst p) (fst q) then axes_angle (snd p) (snd q) else axes_angle (snd q) (snd p)) ia) ia.

(* _lepage.py:266-453 with give_all_results=True.  spglib is the external Niggli reduction
   (default implementation of get_niggli); its NiggliReductionFailed is caught. *)
Definition lepage_cell (spglib : option (mat -> R -> res mat)) (cell : mat) (no_niggli : bool) : res mat :=
  if no_niggli then Ok cell
  else match get_niggli spglib cell (1 / 100000) "spglib" 100000 with
       | Err NiggliReductionFailed => Ok cell
       | r => r
       end.
(* /repo/src/wulfric/_lepage.py:346-383 *)
Definition lepage_axes (cell : mat) (limit : R) : res (list axis) :=
  do rcell <- get_reciprocal cell;
  do axes <- candidates cell rcell limit;
  Ok (dedup (sort_by ax_delta axes)).
(* /repo/src/wulfric/_lepage.py:332-451 *)
Definition lepage_all (spglib : option (mat -> R -> res mat)) (cell : mat) (angle_tolerance : R)
           (no_niggli : bool) (limit : R) : res (list string) :=
  let tol := Rabs angle_tolerance in
  do cell <- lepage_cell spglib cell no_niggli;
  do axes <- lepage_axes cell limit;
  lepage_loop (S (length axes)) axes (angles_of axes) tol cell.
(* give_all_results=False: the result of the last pass [/repo/src/wulfric/_lepage.py:450-453] *)
Definition lepage spglib cell angle_tolerance no_niggli limit : res string :=
  do results <- lepage_all spglib cell angle_tolerance no_niggli limit;
  Ok (last results EmptyString).
