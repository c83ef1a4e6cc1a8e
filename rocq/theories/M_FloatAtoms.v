(* M_FloatAtoms.v : ensure_000, cure_negative and get_vector of /repo/src/wulfric/crystal/_basic_manipulation.py in double
   precision.  A finite double is the real number it stands for, and every operation is rounded; overflow is left out. *)
From Verif Require Import Base M_Voronoi M_Positions M_Float.
From Flocq Require Import Core.
Open Scope R_scope.

(* componentwise rounding of an operation on numpy rows *)
Definition rnd3 (v : vec) : vec := V3 (rnd64 (vx v)) (rnd64 (vy v)) (rnd64 (vz v)).
(* poscomp -= int(poscomp), where the integer becomes a double first; poscomp += 1 [/repo/src/wulfric/crystal/_basic_manipulation.py:177-184] *)
Definition fwrap (x : R) : R :=
  let y := rnd64 (x - rnd64 (IZR (Ztrunc x))) in if Rltb y 0 then rnd64 (y + 1) else y.
(* ensure_000 /repo/src/wulfric/crystal/_basic_manipulation.py:175-186 *)
Definition fensure_000 (positions : list vec) : list vec :=
  map (fun p => V3 (fwrap (vx p)) (fwrap (vy p)) (fwrap (vz p))) positions.
(* cure_negative /repo/src/wulfric/crystal/_basic_manipulation.py:131-137; np.minimum, < and - are exact, the sum is rounded *)
Definition fcure_negative (numpy_rows : bool) (positions : list vec) : res (list vec) :=
  match positions with
  | [] => Err IndexError
  | p :: l =>
      match l, numpy_rows with
      | [], false => Err TypeError
      | _, _ =>
          let m := fold_left vmin l p in
          let shift := V3 (cure1 (vx m)) (cure1 (vy m)) (cure1 (vz m)) in
          Ok (map (fun q => rnd3 (vadd q shift)) positions)
      end
  end.
(* get_vector with return_relative=True /repo/src/wulfric/crystal/_basic_manipulation.py:240-245; the sum is taken from left to right *)
Definition fget_relative (positions : list vec) (atom1 atom2 : Z) (r : zvec) : res vec :=
  do p2 <- np_index positions atom2;
  do p1 <- np_index positions atom1;
  Ok (rnd3 (vsub (rnd3 (vadd (rnd3 (ofZv r)) p2)) p1)).
