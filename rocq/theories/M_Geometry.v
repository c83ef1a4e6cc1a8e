(* M_Geometry.v : model of /repo/src/wulfric/geometry/_geometry.py *)
From Verif Require Import Base M_Numerical.
Open Scope R_scope.

(* constants/_numerical.py: TORADIANS = pi/180, TODEGREES = 180/pi *)
Definition TORADIANS : R := PI / 180.
(* /repo/src/wulfric/constants/_numerical.py:28 *)
Definition TODEGREES : R := 180 / PI.

(* math.sqrt: ValueError for negative arguments. [/repo/src/wulfric/geometry/_geometry.py:115] *)
Definition py_sqrt (x : R) : res R := if Rltb x 0 then Err ValueError else Ok (sqrt x).

(* geometry/_geometry.py:104-110, the expression called sq_root; angles in radians. *)
Definition radicand (alpha beta gamma : R) : R :=
  1 + 2 * cos alpha * cos beta * cos gamma
  - cos alpha * cos alpha - cos beta * cos beta - cos gamma * cos gamma.

(* geometry/_geometry.py:31-122 get_volume( *args ).  The argument tuple is
   represented by its shape: one cell, three vectors, six numbers, or any other
   number of arguments. *)
Inductive volume_args :=
| VolCell (cell : mat)
| VolVectors (v1 v2 v3 : vec)
| VolParams (a b c alpha beta gamma : R)
| VolOther (number_of_arguments : nat).

(* /repo/src/wulfric/geometry/_geometry.py:99-122 *)
Definition get_volume (args : volume_args) : res R :=
  match args with
  | VolCell cell => Ok (Rabs (det cell))
  | VolVectors v1 v2 v3 => Ok (Rabs (det (M3 v1 v2 v3)))
  | VolParams a b c alpha beta gamma =>
      let alpha := alpha * TORADIANS in
      let beta := beta * TORADIANS in
      let gamma := gamma * TORADIANS in
      do root <- py_sqrt (radicand alpha beta gamma);
      Ok (a * b * c * root)
  | VolOther _ => Err ValueError
  end.

(* numpy.finfo(float).eps = 2^-52 [/repo/src/wulfric/geometry/_geometry.py:173] *)
Definition FLOAT_EPS : R := / 4503599627370496.
(* numpy.clip(x, lo, hi) [/repo/src/wulfric/geometry/_geometry.py:179, 423, 429] *)
Definition clip (x lo hi : R) : R := Rmin (Rmax x lo) hi.

(* geometry/_geometry.py:125-183 get_angle *)
Definition get_angle (v1 v2 : vec) (radians : bool) : res R :=
  let v1_norm := norm v1 in
  let v2_norm := norm v2 in
  if Rleb (Rabs v1_norm) FLOAT_EPS || Rleb (Rabs v2_norm) FLOAT_EPS then Err ValueError
  else
    let v1 := vscale (/ v1_norm) v1 in
    let v2 := vscale (/ v2_norm) v2 in
    let alpha := acos (clip (dot v1 v2) (-1) 1) in
    if radians then Ok alpha else Ok (alpha * TODEGREES).

(* geometry/_geometry.py:186-340 parallelepiped_check.  The text of the error
   message is not modelled. *)
Definition ppc (a b c alpha beta gamma length_tolerance angle_tolerance : R) : bool :=
  cwt a CGt 0 length_tolerance
  && cwt b CGt 0 length_tolerance
  && cwt c CGt 0 length_tolerance
  && cwt alpha CLt 180 angle_tolerance
  && cwt beta CLt 180 angle_tolerance
  && cwt gamma CLt 180 angle_tolerance
  && cwt alpha CGt 0 angle_tolerance
  && cwt beta CGt 0 angle_tolerance
  && cwt gamma CGt 0 angle_tolerance
  && cwt gamma CLt (alpha + beta) angle_tolerance
  && cwt (alpha + beta) CLt (360 - gamma) angle_tolerance
  && cwt beta CLt (alpha + gamma) angle_tolerance
  && cwt (alpha + gamma) CLt (360 - beta) angle_tolerance
  && cwt alpha CLt (beta + gamma) angle_tolerance
  && cwt (beta + gamma) CLt (360 - alpha) angle_tolerance.

(* /repo/src/wulfric/geometry/_geometry.py:186-340 *)
Definition parallelepiped_check (a b c alpha beta gamma : R) (raise_error : bool)
           (length_tolerance angle_tolerance : R) : res bool :=
  let result := ppc a b c alpha beta gamma length_tolerance angle_tolerance in
  if negb result && raise_error then Err ValueError else Ok result.

(* default tolerances, _geometry.py:194-195 *)
Definition default_length_tolerance : R := / 100000000.
(* /repo/src/wulfric/geometry/_geometry.py:195 *)
Definition default_angle_tolerance : R := / 10000.

(* numpy.allclose(u, v) with the default rtol = 1e-5, atol = 1e-8, on 3-vectors
   [/repo/src/wulfric/geometry/_geometry.py:418, 420; _spglib_interface.py:293, 298] *)
Definition close1 (x y : R) : bool := Rleb (Rabs (x - y)) (/ 100000000 + / 100000 * Rabs y).
(* /repo/src/wulfric/geometry/_geometry.py:418, 420 *)
Definition allclose (u v : vec) : bool :=
  close1 (vx u) (vx v) && close1 (vy u) (vy v) && close1 (vz u) (vz v).

(* v / numpy.linalg.norm(v): numpy gives nan for the zero vector
   [/repo/src/wulfric/geometry/_geometry.py:413-416, 426] *)
Definition normalize (v : vec) : res vec :=
  if Reqb (norm v) 0 then Err NotANumber else Ok (vscale (/ norm v) v).

(* geometry/_geometry.py:343-439 get_spherical *)
Definition get_spherical (vector : vec) (in_degrees : bool) (polar_axis radial_line_zero : vec)
  : res (R * R * R) :=
  do polar_axis <- normalize polar_axis;
  do radial_line_zero <- normalize radial_line_zero;
  let r := norm vector in
  do vector <- normalize vector;
  do (polar, azimuthal) <-
    (if allclose vector polar_axis then Ok (0, 0)
     else if allclose vector (vneg polar_axis) then Ok (PI, PI)
     else
       let polar := acos (clip (dot vector polar_axis) (-1) 1) in
       let vector := vsub vector (vscale (dot vector polar_axis) polar_axis) in
       do vector <- normalize vector;
       let azimuthal := acos (clip (dot vector radial_line_zero) (-1) 1) in
       if Rleb 0 (det (M3 polar_axis radial_line_zero vector))
       then Ok (polar, azimuthal) else Ok (polar, 2 * PI - azimuthal));
  if in_degrees then Ok (r, polar * TODEGREES, azimuthal * TODEGREES)
  else Ok (r, polar, azimuthal).
