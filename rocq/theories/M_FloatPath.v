(* M_FloatPath.v : the points of a k-path in double precision, /repo/src/wulfric/_kpoints_class.py:407-528.
   A finite double is the real number it stands for, and every operation is rounded; overflow is left out.
   at : the coordinates of the high-symmetry points, self.hs_coordinates[name] @ cell.  The expression is the same in the three
   methods, so that its value is the same; every name of the path is taken to have coordinates (C19). *)
From Verif Require Import Base M_Float M_FloatAtoms.
From Flocq Require Import Core.
Open Scope R_scope.

(* np.linspace(a, b, n + 2): delta = b - a; step = delta / div; if some component of the step is 0, y = arange / div * delta, otherwise
   y = arange * step; y += a; the last one is set to b [/repo/src/wulfric/_kpoints_class.py:473-477, 515-519].  One component. *)
Definition fstep (a b : R) (n : Z) : R := rnd64 (rnd64 (b - a) / IZR (n + 1)).
(* numpy.linspace, one component of one point [/repo/src/wulfric/_kpoints_class.py:473-477] *)
Definition fmiddle (zero : bool) (a b : R) (n : Z) (j : nat) : R :=
  let delta := rnd64 (b - a) in
  let y := if zero then rnd64 (rnd64 (INR j / IZR (n + 1)) * delta) else rnd64 (INR j * fstep a b n) in
  rnd64 (y + a).
(* numpy.linspace with n + 2 points, for n not negative [/repo/src/wulfric/_kpoints_class.py:473-477, 515-519] *)
Definition flinspace (a b : vec) (n : Z) : list vec :=
  let zero := Reqb (fstep (vx a) (vx b) n) 0 || Reqb (fstep (vy a) (vy b) n) 0 || Reqb (fstep (vz a) (vz b) n) 0 in
  map (fun j => if Nat.eqb j (Z.to_nat (n + 1)) then b
                else V3 (fmiddle zero (vx a) (vx b) n j) (fmiddle zero (vy a) (vy b) n j) (fmiddle zero (vz a) (vz b) n j))
      (seq 0 (Z.to_nat (n + 2))).
(* np.linalg.norm(points, axis=1), one row: squares, sum from left to right, square root [/repo/src/wulfric/_kpoints_class.py:522] *)
Definition fnorm (v : vec) : R :=
  rnd64 (sqrt (rnd64 (rnd64 (rnd64 (vx v * vx v) + rnd64 (vy v * vy v)) + rnd64 (vz v * vz v)))).

(* points /repo/src/wulfric/_kpoints_class.py:468-482; None is the empty list *)
Fixpoint fpoints_sub (at_ : string -> vec) (n : Z) (prev : string) (rest : list string) (acc : list vec) : list vec :=
  match rest with
  | [] => acc
  | name :: rest' => fpoints_sub at_ n name rest' (acc ++ flinspace (at_ prev) (at_ name) n)
  end.
(* /repo/src/wulfric/_kpoints_class.py:469-481 *)
Fixpoint fpoints (at_ : string -> vec) (n : Z) (path : list (list string)) (acc : list vec) : list vec :=
  match path with
  | [] => acc
  | sub :: path' => fpoints at_ n path' match sub with [] => acc | h :: t => fpoints_sub at_ n h t acc end
  end.

(* ticks /repo/src/wulfric/_kpoints_class.py:407-442; norm1: np.linalg.norm of one vector, which is computed by another routine than
   the norms of rows *)
Fixpoint fticks_sub (norm1 : vec -> R) (at_ : string -> vec) (prev : string) (rest : list string) (acc : list R) : list R :=
  match rest with
  | [] => acc
  | name :: rest' => fticks_sub norm1 at_ name rest' (acc ++ [rnd64 (norm1 (rnd3 (vsub (at_ name) (at_ prev))) + last acc 0)])
  end.
(* /repo/src/wulfric/_kpoints_class.py:430-440 *)
Fixpoint fticks_loop (norm1 : vec -> R) (at_ : string -> vec) (first : bool) (path : list (list string)) (acc : list R) : list R :=
  match path with
  | [] => acc
  | sub :: path' =>
      let acc0 := if first then acc ++ [0] else acc in
      fticks_loop norm1 at_ false path' match sub with [] => acc0 | h :: t => fticks_sub norm1 at_ h t acc0 end
  end.
(* /repo/src/wulfric/_kpoints_class.py:407-442 *)
Definition fticks (norm1 : vec -> R) (at_ : string -> vec) (path : list (list string)) : list R := fticks_loop norm1 at_ true path [].

(* flat_points /repo/src/wulfric/_kpoints_class.py:510-528; None is the empty list, which is found here only for a first subpath
   without segments, where the code raises TypeError *)
Fixpoint fflat_sub (at_ : string -> vec) (n : Z) (first : bool) (prev : string) (rest : list string) (acc : list R) : list R :=
  match rest with
  | [] => acc
  | name :: rest' =>
      let delta := map (fun p => fnorm (rnd3 (vsub p (at_ prev)))) (flinspace (at_ prev) (at_ name) n) in
      fflat_sub at_ n false name rest' (if first then delta else acc ++ map (fun d => rnd64 (d + last acc 0)) delta)
  end.
(* /repo/src/wulfric/_kpoints_class.py:510-527 *)
Fixpoint fflat_loop (at_ : string -> vec) (n : Z) (first : bool) (path : list (list string)) (acc : list R) : list R :=
  match path with
  | [] => acc
  | sub :: path' => fflat_loop at_ n false path' match sub with [] => acc | h :: t => fflat_sub at_ n first h t acc end
  end.
(* /repo/src/wulfric/_kpoints_class.py:486-528 *)
Definition fflat_points (at_ : string -> vec) (n : Z) (path : list (list string)) : list R := fflat_loop at_ n true path [].
