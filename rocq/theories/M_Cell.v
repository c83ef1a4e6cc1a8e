(* M_Cell.v : model of /repo/src/wulfric/cell/_basic_manipulation.py *)
From Verif Require Import Base M_Numerical M_Geometry.
Open Scope R_scope.

(* cell/_basic_manipulation.py:39-75 get_reciprocal *)
Definition get_reciprocal (cell : mat) : res mat :=
  do i <- minv cell; Ok (mscale (2 * PI) (tr i)).

(* cell/_basic_manipulation.py:78-184 from_params *)
Definition from_params (a b c alpha beta gamma : R) : res mat :=
  do _ <- parallelepiped_check a b c alpha beta gamma true
            default_length_tolerance default_angle_tolerance;
  let alpha := alpha * TORADIANS in
  let beta := beta * TORADIANS in
  let gamma := gamma * TORADIANS in
  do root <- py_sqrt (radicand alpha beta gamma);
  Ok (mk a 0 0
         (b * cos gamma) (b * sin gamma) 0
         (c * cos beta)
         (c / sin gamma * (cos alpha - cos beta * cos gamma))
         (c / sin gamma * root)).

(* cell/_basic_manipulation.py:187-236 get_params *)
Record params := Params { pa : R; pb : R; pc : R; palpha : R; pbeta : R; pgamma : R }.
(* /repo/src/wulfric/cell/_basic_manipulation.py:187-236 *)
Definition get_params (cell : mat) : res params :=
  do alpha <- get_angle (row2 cell) (row3 cell) false;
  do beta <- get_angle (row1 cell) (row3 cell) false;
  do gamma <- get_angle (row1 cell) (row2 cell) false;
  Ok (Params (norm (row1 cell)) (norm (row2 cell)) (norm (row3 cell)) alpha beta gamma).

(* cell/_basic_manipulation.py:239-272 get_scalar_products *)
Definition get_scalar_products (cell : mat) : R * R * R :=
  (dot (row2 cell) (row3 cell), dot (row1 cell) (row3 cell), dot (row1 cell) (row2 cell)).

(* cell/_basic_manipulation.py:275-296 get_transformation_matrix, for numpy inputs
   (a plain python list as transformed_cell has no attribute .T and raises
   AttributeError in python; that input type is not represented). *)
Definition get_transformation_matrix (original_cell transformed_cell : mat) : res mat :=
  do i <- minv original_cell; Ok (mmul (tr i) (tr transformed_cell)).
