(* T_Points.v : tables of high-symmetry points, copied from /repo/src/wulfric/kpoints/.
   Each table is a dictionary name -> coordinates in the basis of the reciprocal primitive cell.
   A division by zero gives inf or nan for numpy scalars (marked NotANumber) and ZeroDivisionError
   for Python floats; every denominator that is not a literal is checked, once, in the order of
   evaluation.  tan at an odd multiple of pi/2 is marked NotANumber. *)
From Verif Require Import Base M_Strings M_Dict M_Numerical M_Geometry M_Cell.
Open Scope string_scope.
Open Scope list_scope.
Open Scope R_scope.

(* x**2 [/repo/src/wulfric/kpoints/_hpkot_points.py:74-450, kpoints/_sc_points.py:73-360] *)
Definition sq (x : R) : R := x * x.

(* /repo/src/wulfric/kpoints/_hpkot_points.py:32-39 *)
Definition hpkot_table_69  : res (dict vec) :=
  Ok [("GAMMA", V3 0 0 0);
      ("R", V3 (1 / 2) (1 / 2) (1 / 2));
      ("M", V3 (1 / 2) (1 / 2) 0);
      ("X", V3 0 (1 / 2) 0);
      ("X1", V3 (1 / 2) 0 0)].

(* /repo/src/wulfric/kpoints/_hpkot_points.py:42-51 *)
Definition hpkot_table_70  : res (dict vec) :=
  Ok [("GAMMA", V3 0 0 0);
      ("X", V3 (1 / 2) 0 (1 / 2));
      ("L", V3 (1 / 2) (1 / 2) (1 / 2));
      ("W", V3 (1 / 2) (1 / 4) (3 / 4));
      ("W2", V3 (3 / 4) (1 / 4) (1 / 2));
      ("K", V3 (3 / 8) (3 / 8) (3 / 4));
      ("U", V3 (5 / 8) (1 / 4) (5 / 8))].

(* /repo/src/wulfric/kpoints/_hpkot_points.py:54-60 *)
Definition hpkot_table_71  : res (dict vec) :=
  Ok [("GAMMA", V3 0 0 0);
      ("H", V3 (1 / 2) (- 1 / 2) (1 / 2));
      ("P", V3 (1 / 4) (1 / 4) (1 / 4));
      ("N", V3 0 0 (1 / 2))].

(* /repo/src/wulfric/kpoints/_hpkot_points.py:63-71 *)
Definition hpkot_table_72  : res (dict vec) :=
  Ok [("GAMMA", V3 0 0 0);
      ("Z", V3 0 0 (1 / 2));
      ("M", V3 (1 / 2) (1 / 2) 0);
      ("A", V3 (1 / 2) (1 / 2) (1 / 2));
      ("R", V3 0 (1 / 2) (1 / 2));
      ("X", V3 0 (1 / 2) 0)].

(* /repo/src/wulfric/kpoints/_hpkot_points.py:74-84 *)
Definition hpkot_table_73 (a : R) (c : R) : res (dict vec) :=
  if Reqb (a) 0 then Err NotANumber else
  let eta := (1 + sq (c / a)) / 4 in
  Ok [("GAMMA", V3 0 0 0);
      ("M", V3 (- 1 / 2) (1 / 2) (1 / 2));
      ("X", V3 0 0 (1 / 2));
      ("P", V3 (1 / 4) (1 / 4) (1 / 4));
      ("Z", V3 eta eta (- eta));
      ("Z0", V3 (- eta) (1 - eta) eta);
      ("N", V3 0 (1 / 2) 0)].

(* /repo/src/wulfric/kpoints/_hpkot_points.py:87-100 *)
Definition hpkot_table_74 (a : R) (c : R) : res (dict vec) :=
  if Reqb (c) 0 then Err NotANumber else
  let eta := (1 + sq (a / c)) / 4 in
  let zeta := sq (a / c) / 2 in
  Ok [("GAMMA", V3 0 0 0);
      ("M", V3 (1 / 2) (1 / 2) (- 1 / 2));
      ("X", V3 0 0 (1 / 2));
      ("P", V3 (1 / 4) (1 / 4) (1 / 4));
      ("N", V3 0 (1 / 2) 0);
      ("S0", V3 (- eta) eta eta);
      ("S", V3 eta (1 - eta) (- eta));
      ("R", V3 (- zeta) zeta (1 / 2));
      ("G", V3 (1 / 2) (1 / 2) (- zeta))].

(* /repo/src/wulfric/kpoints/_hpkot_points.py:103-113 *)
Definition hpkot_table_75  : res (dict vec) :=
  Ok [("GAMMA", V3 0 0 0);
      ("X", V3 (1 / 2) 0 0);
      ("Z", V3 0 0 (1 / 2));
      ("U", V3 (1 / 2) 0 (1 / 2));
      ("Y", V3 0 (1 / 2) 0);
      ("S", V3 (1 / 2) (1 / 2) 0);
      ("T", V3 0 (1 / 2) (1 / 2));
      ("R", V3 (1 / 2) (1 / 2) (1 / 2))].

(* /repo/src/wulfric/kpoints/_hpkot_points.py:116-129 *)
Definition hpkot_table_76 (a : R) (b : R) (c : R) : res (dict vec) :=
  if Reqb (b) 0 then Err NotANumber else
  if Reqb (c) 0 then Err NotANumber else
  let zeta := (1 + sq (a / b) - sq (a / c)) / 4 in
  let eta := (1 + sq (a / b) + sq (a / c)) / 4 in
  Ok [("GAMMA", V3 0 0 0);
      ("T", V3 1 (1 / 2) (1 / 2));
      ("Z", V3 (1 / 2) (1 / 2) 0);
      ("Y", V3 (1 / 2) 0 (1 / 2));
      ("SIGMA0", V3 0 eta eta);
      ("U0", V3 1 (1 - eta) (1 - eta));
      ("A0", V3 (1 / 2) (1 / 2 + zeta) zeta);
      ("C0", V3 (1 / 2) (1 / 2 - zeta) (1 - zeta));
      ("L", V3 (1 / 2) (1 / 2) (1 / 2))].

(* /repo/src/wulfric/kpoints/_hpkot_points.py:132-145 *)
Definition hpkot_table_77 (a : R) (b : R) (c : R) : res (dict vec) :=
  if Reqb (a) 0 then Err NotANumber else
  if Reqb (b) 0 then Err NotANumber else
  let zeta := (1 + sq (c / a) - sq (c / b)) / 4 in
  let eta := (1 + sq (c / a) + sq (c / b)) / 4 in
  Ok [("GAMMA", V3 0 0 0);
      ("T", V3 0 (1 / 2) (1 / 2));
      ("Z", V3 (1 / 2) (1 / 2) 1);
      ("Y", V3 (1 / 2) 0 (1 / 2));
      ("LAMBDA0", V3 eta eta 0);
      ("Q0", V3 (1 - eta) (1 - eta) 1);
      ("G0", V3 (1 / 2 - zeta) (1 - zeta) (1 / 2));
      ("H0", V3 (1 / 2 + zeta) zeta (1 / 2));
      ("L", V3 (1 / 2) (1 / 2) (1 / 2))].

(* /repo/src/wulfric/kpoints/_hpkot_points.py:148-164 *)
Definition hpkot_table_78 (a : R) (b : R) (c : R) : res (dict vec) :=
  if Reqb (b) 0 then Err NotANumber else
  if Reqb (c) 0 then Err NotANumber else
  let eta := (1 + sq (a / b) - sq (a / c)) / 4 in
  if Reqb (a) 0 then Err NotANumber else
  let delta := (1 + sq (b / a) - sq (b / c)) / 4 in
  let phi := (1 + sq (c / b) - sq (c / a)) / 4 in
  Ok [("GAMMA", V3 0 0 0);
      ("T", V3 0 (1 / 2) (1 / 2));
      ("Z", V3 (1 / 2) (1 / 2) 0);
      ("Y", V3 (1 / 2) 0 (1 / 2));
      ("A0", V3 (1 / 2) (1 / 2 + eta) eta);
      ("C0", V3 (1 / 2) (1 / 2 - eta) (1 - eta));
      ("B0", V3 (1 / 2 + delta) (1 / 2) delta);
      ("D0", V3 (1 / 2 - delta) (1 / 2) (1 - delta));
      ("G0", V3 phi (1 / 2 + phi) (1 / 2));
      ("H0", V3 (1 - phi) (1 / 2 - phi) (1 / 2));
      ("L", V3 (1 / 2) (1 / 2) (1 / 2))].

(* /repo/src/wulfric/kpoints/_hpkot_points.py:167-186 *)
Definition hpkot_table_79 (a : R) (b : R) (c : R) : res (dict vec) :=
  if Reqb (c) 0 then Err NotANumber else
  let zeta := (1 + sq (a / c)) / 4 in
  let eta := (1 + sq (b / c)) / 4 in
  if Reqb ((sq c)) 0 then Err NotANumber else
  let delta := (sq b - sq a) / 4 / (sq c) in
  let mu := (sq a + sq b) / 4 / (sq c) in
  Ok [("GAMMA", V3 0 0 0);
      ("X", V3 (1 / 2) (1 / 2) (- 1 / 2));
      ("S", V3 (1 / 2) 0 0);
      ("R", V3 0 (1 / 2) 0);
      ("T", V3 0 0 (1 / 2));
      ("W", V3 (1 / 4) (1 / 4) (1 / 4));
      ("SIGMA0", V3 (- zeta) zeta zeta);
      ("F2", V3 zeta (1 - zeta) (- zeta));
      ("Y0", V3 eta (- eta) eta);
      ("U0", V3 (1 - eta) eta (- eta));
      ("L0", V3 (- mu) mu (1 / 2 - delta));
      ("M0", V3 mu (- mu) (1 / 2 + delta));
      ("J0", V3 (1 / 2 - delta) (1 / 2 + delta) (- mu))].

(* /repo/src/wulfric/kpoints/_hpkot_points.py:189-208 *)
Definition hpkot_table_80 (a : R) (b : R) (c : R) : res (dict vec) :=
  if Reqb (a) 0 then Err NotANumber else
  let zeta := (1 + sq (b / a)) / 4 in
  let eta := (1 + sq (c / a)) / 4 in
  if Reqb ((sq a)) 0 then Err NotANumber else
  let delta := (sq c - sq b) / 4 / (sq a) in
  let mu := (sq b + sq c) / 4 / (sq a) in
  Ok [("GAMMA", V3 0 0 0);
      ("X", V3 (- 1 / 2) (1 / 2) (1 / 2));
      ("S", V3 (1 / 2) 0 0);
      ("R", V3 0 (1 / 2) 0);
      ("T", V3 0 0 (1 / 2));
      ("W", V3 (1 / 4) (1 / 4) (1 / 4));
      ("Y0", V3 zeta (- zeta) zeta);
      ("U2", V3 (- zeta) zeta (1 - zeta));
      ("LAMBDA0", V3 eta eta (- eta));
      ("G2", V3 (- eta) (1 - eta) eta);
      ("K", V3 (1 / 2 - delta) (- mu) mu);
      ("K2", V3 (1 / 2 + delta) mu (- mu));
      ("K4", V3 (- mu) (1 / 2 - delta) (1 / 2 + delta))].

(* /repo/src/wulfric/kpoints/_hpkot_points.py:211-230 *)
Definition hpkot_table_81 (a : R) (b : R) (c : R) : res (dict vec) :=
  if Reqb (b) 0 then Err NotANumber else
  let zeta := (1 + sq (c / b)) / 4 in
  let eta := (1 + sq (a / b)) / 4 in
  if Reqb ((sq b)) 0 then Err NotANumber else
  let delta := (sq a - sq c) / 4 / (sq b) in
  let mu := (sq c + sq a) / 4 / (sq b) in
  Ok [("GAMMA", V3 0 0 0);
      ("X", V3 (1 / 2) (- 1 / 2) (1 / 2));
      ("S", V3 (1 / 2) 0 0);
      ("R", V3 0 (1 / 2) 0);
      ("T", V3 0 0 (1 / 2));
      ("W", V3 (1 / 4) (1 / 4) (1 / 4));
      ("SIGMA0", V3 (- eta) eta eta);
      ("F0", V3 eta (- eta) (1 - eta));
      ("LAMBDA0", V3 zeta zeta (- zeta));
      ("G0", V3 (1 - zeta) (- zeta) zeta);
      ("V0", V3 mu (1 / 2 - delta) (- mu));
      ("H0", V3 (- mu) (1 / 2 + delta) mu);
      ("H2", V3 (1 / 2 + delta) (- mu) (1 / 2 - delta))].

(* /repo/src/wulfric/kpoints/_hpkot_points.py:233-253 *)
Definition hpkot_table_82 (a : R) (b : R) (c : R) (lattice_type : string) : res (dict vec) :=
  do zeta <- (if String.eqb lattice_type "oA" then if Reqb (c) 0 then Err NotANumber else Ok ((1 + sq (b / c)) / 4)
              else if String.eqb lattice_type "oC" then if Reqb (b) 0 then Err NotANumber else Ok ((1 + sq (a / b)) / 4)
              else Err PotentialBugError);
  Ok [("GAMMA", V3 0 0 0);
      ("Y", V3 (- 1 / 2) (1 / 2) 0);
      ("T", V3 (- 1 / 2) (1 / 2) (1 / 2));
      ("Z", V3 0 0 (1 / 2));
      ("S", V3 0 (1 / 2) 0);
      ("R", V3 0 (1 / 2) (1 / 2));
      ("SIGMA0", V3 zeta zeta 0);
      ("C0", V3 (- zeta) (1 - zeta) 0);
      ("A0", V3 zeta zeta (1 / 2));
      ("E0", V3 (- zeta) (1 - zeta) (1 / 2))].

(* /repo/src/wulfric/kpoints/_hpkot_points.py:256-281 *)
Definition hpkot_table_83 (a : R) (b : R) (c : R) (lattice_type : string) : res (dict vec) :=
  do zeta <- (if String.eqb lattice_type "oA" then if Reqb (b) 0 then Err NotANumber else Ok ((1 + sq (c / b)) / 4)
              else if String.eqb lattice_type "oC" then if Reqb (a) 0 then Err NotANumber else Ok ((1 + sq (b / a)) / 4)
              else Err PotentialBugError);
  Ok [("GAMMA", V3 0 0 0);
      ("Y", V3 (1 / 2) (1 / 2) 0);
      ("T", V3 (1 / 2) (1 / 2) (1 / 2));
      ("T2", V3 (1 / 2) (1 / 2) (- 1 / 2));
      ("Z", V3 0 0 (1 / 2));
      ("Z2", V3 0 0 (- 1 / 2));
      ("S", V3 0 (1 / 2) 0);
      ("R", V3 0 (1 / 2) (1 / 2));
      ("R2", V3 0 (1 / 2) (- 1 / 2));
      ("DELTA0", V3 (- zeta) zeta 0);
      ("F0", V3 zeta (1 - zeta) 0);
      ("B0", V3 (- zeta) zeta (1 / 2));
      ("B2", V3 (- zeta) zeta (- 1 / 2));
      ("G0", V3 zeta (1 - zeta) (1 / 2));
      ("G2", V3 zeta (1 - zeta) (- 1 / 2))].

(* /repo/src/wulfric/kpoints/_hpkot_points.py:284-293 *)
Definition hpkot_table_84  : res (dict vec) :=
  Ok [("GAMMA", V3 0 0 0);
      ("A", V3 0 0 (1 / 2));
      ("K", V3 (1 / 3) (1 / 3) 0);
      ("H", V3 (1 / 3) (1 / 3) (1 / 2));
      ("H2", V3 (1 / 3) (1 / 3) (- 1 / 2));
      ("M", V3 (1 / 2) 0 0);
      ("L", V3 (1 / 2) 0 (1 / 2))].

(* /repo/src/wulfric/kpoints/_hpkot_points.py:296-322 *)
Definition hpkot_table_85 (a : R) (c : R) : res (dict vec) :=
  if Reqb (c) 0 then Err NotANumber else
  let delta := sq (a / c) / 4 in
  let eta := 5 / 6 - 2 * delta in
  let nu := 1 / 3 + delta in
  Ok [("GAMMA", V3 0 0 0);
      ("T", V3 (1 / 2) (1 / 2) (1 / 2));
      ("L", V3 (1 / 2) 0 0);
      ("L2", V3 0 (- 1 / 2) 0);
      ("L4", V3 0 0 (- 1 / 2));
      ("F", V3 (1 / 2) 0 (1 / 2));
      ("F2", V3 (1 / 2) (1 / 2) 0);
      ("S0", V3 nu (- nu) 0);
      ("S2", V3 (1 - nu) 0 nu);
      ("S4", V3 nu 0 (- nu));
      ("S6", V3 (1 - nu) nu 0);
      ("H0", V3 (1 / 2) (- 1 + eta) (1 - eta));
      ("H2", V3 eta (1 - eta) (1 / 2));
      ("H4", V3 eta (1 / 2) (1 - eta));
      ("H6", V3 (1 / 2) (1 - eta) (- 1 + eta));
      ("M0", V3 nu (- 1 + eta) nu);
      ("M2", V3 (1 - nu) (1 - eta) (1 - nu));
      ("M4", V3 eta nu nu);
      ("M6", V3 (1 - nu) (1 - nu) (1 - eta));
      ("M8", V3 nu nu (- 1 + eta))].

(* /repo/src/wulfric/kpoints/_hpkot_points.py:325-339 *)
Definition hpkot_table_86 (a : R) (c : R) : res (dict vec) :=
  if Reqb (a) 0 then Err NotANumber else
  let zeta := 1 / 6 - sq (c / a) / 9 in
  let eta := 1 / 2 - 2 * zeta in
  let nu := 1 / 2 + zeta in
  Ok [("GAMMA", V3 0 0 0);
      ("T", V3 (1 / 2) (- 1 / 2) (1 / 2));
      ("P0", V3 eta (- 1 + eta) eta);
      ("P2", V3 eta eta eta);
      ("R0", V3 (1 - eta) (- eta) (- eta));
      ("M", V3 (1 - nu) (- nu) (1 - nu));
      ("M2", V3 nu (- 1 + nu) (- 1 + nu));
      ("L", V3 (1 / 2) 0 0);
      ("F", V3 (1 / 2) (- 1 / 2) 0)].

(* /repo/src/wulfric/kpoints/_hpkot_points.py:342-365 *)
Definition hpkot_table_87 (a : R) (c : R) (beta : R) : res (dict vec) :=
  let beta := beta * TORADIANS in
  if Reqb (c) 0 then Err NotANumber else
  if Reqb ((sq (sin beta))) 0 then Err NotANumber else
  let eta := (1 + a / c * (cos beta)) / 2 / (sq (sin beta)) in
  if Reqb (a) 0 then Err NotANumber else
  let nu := 1 / 2 + eta * c * (cos beta) / a in
  Ok [("GAMMA", V3 0 0 0);
      ("Z", V3 0 (1 / 2) 0);
      ("B", V3 0 0 (1 / 2));
      ("B2", V3 0 0 (- 1 / 2));
      ("Y", V3 (1 / 2) 0 0);
      ("Y2", V3 (- 1 / 2) 0 0);
      ("C", V3 (1 / 2) (1 / 2) 0);
      ("C2", V3 (- 1 / 2) (1 / 2) 0);
      ("D", V3 0 (1 / 2) (1 / 2));
      ("D2", V3 0 (1 / 2) (- 1 / 2));
      ("A", V3 (- 1 / 2) 0 (1 / 2));
      ("E", V3 (- 1 / 2) (1 / 2) (1 / 2));
      ("H", V3 (- eta) 0 (1 - nu));
      ("H2", V3 (- 1 + eta) 0 nu);
      ("H4", V3 (- eta) 0 (- nu));
      ("M", V3 (- eta) (1 / 2) (1 - nu));
      ("M2", V3 (- 1 + eta) (1 / 2) nu);
      ("M4", V3 (- eta) (1 / 2) (- nu))].

(* /repo/src/wulfric/kpoints/_hpkot_points.py:368-391 *)
Definition hpkot_table_88 (a : R) (b : R) (c : R) (beta : R) : res (dict vec) :=
  let beta := beta * TORADIANS in
  if Reqb (c) 0 then Err NotANumber else
  if Reqb ((sq (sin beta))) 0 then Err NotANumber else
  let zeta := (2 + a / c * (cos beta)) / 4 / (sq (sin beta)) in
  if Reqb (a) 0 then Err NotANumber else
  let eta := 1 / 2 - 2 * zeta * c * (cos beta) / a in
  if Reqb ((sq a)) 0 then Err NotANumber else
  let psi := 3 / 4 - sq b / 4 / (sq a) / (sq (sin beta)) in
  let phi := psi - (3 / 4 - psi) * a * (cos beta) / c in
  Ok [("GAMMA", V3 0 0 0);
      ("Y2", V3 (- 1 / 2) (1 / 2) 0);
      ("Y4", V3 (1 / 2) (- 1 / 2) 0);
      ("A", V3 0 0 (1 / 2));
      ("M2", V3 (- 1 / 2) (1 / 2) (1 / 2));
      ("V", V3 (1 / 2) 0 0);
      ("V2", V3 0 (1 / 2) 0);
      ("L2", V3 0 (1 / 2) (1 / 2));
      ("C", V3 (1 - psi) (1 - psi) 0);
      ("C2", V3 (- 1 + psi) psi 0);
      ("C4", V3 psi (- 1 + psi) 0);
      ("D", V3 (- 1 + phi) phi (1 / 2));
      ("D2", V3 (1 - phi) (1 - phi) (1 / 2));
      ("E", V3 (- 1 + zeta) (1 - zeta) (1 - eta));
      ("E2", V3 (- zeta) zeta eta);
      ("E4", V3 zeta (- zeta) (1 - eta))].

(* /repo/src/wulfric/kpoints/_hpkot_points.py:394-419 *)
Definition hpkot_table_89 (a : R) (b : R) (c : R) (beta : R) : res (dict vec) :=
  let beta := beta * TORADIANS in
  if Reqb (b) 0 then Err NotANumber else
  let mu := (1 + sq (a / b)) / 4 in
  if Reqb ((sq b)) 0 then Err NotANumber else
  let delta := - a * c * (cos beta) / 2 / (sq b) in
  if Reqb (c) 0 then Err NotANumber else
  if Reqb ((sq (sin beta))) 0 then Err NotANumber else
  let zeta := (sq (a / b) + (1 + a / c * (cos beta)) / (sq (sin beta))) / 4 in
  if Reqb (a) 0 then Err NotANumber else
  let eta := 1 / 2 - 2 * zeta * c * (cos beta) / a in
  let phi := 1 + zeta - 2 * mu in
  let psi := eta - 2 * delta in
  Ok [("GAMMA", V3 0 0 0);
      ("Y", V3 (1 / 2) (1 / 2) 0);
      ("A", V3 0 0 (1 / 2));
      ("M", V3 (1 / 2) (1 / 2) (1 / 2));
      ("V2", V3 0 (1 / 2) 0);
      ("L2", V3 0 (1 / 2) (1 / 2));
      ("F", V3 (- 1 + phi) (1 - phi) (1 - psi));
      ("F2", V3 (1 - phi) phi psi);
      ("F4", V3 phi (1 - phi) (1 - psi));
      ("H", V3 (- zeta) zeta eta);
      ("H2", V3 zeta (1 - zeta) (1 - eta));
      ("H4", V3 zeta (- zeta) (1 - eta));
      ("G", V3 (- mu) mu delta);
      ("G2", V3 mu (1 - mu) (- delta));
      ("G4", V3 mu (- mu) (- delta));
      ("G6", V3 (1 - mu) mu delta)].

(* /repo/src/wulfric/kpoints/_hpkot_points.py:422-451 *)
Definition hpkot_table_90 (a : R) (b : R) (c : R) (beta : R) : res (dict vec) :=
  let beta := beta * TORADIANS in
  if Reqb (b) 0 then Err NotANumber else
  if Reqb (c) 0 then Err NotANumber else
  if Reqb ((sq (sin beta))) 0 then Err NotANumber else
  let zeta := (sq (a / b) + (1 + a / c * (cos beta)) / (sq (sin beta))) / 4 in
  if Reqb (a) 0 then Err NotANumber else
  let rho := 1 - zeta * (sq (b / a)) in
  let eta := 1 / 2 - 2 * zeta * c * (cos beta) / a in
  if Reqb ((sq b)) 0 then Err NotANumber else
  let mu := eta / 2 + sq (a / b) / 4 + a * c * (cos beta) / 2 / (sq b) in
  let nu := 2 * mu - zeta in
  if Reqb ((cos beta)) 0 then Err NotANumber else
  let omega := c * (1 - 4 * nu + sq (a / b) * (sq (sin beta))) / 2 / a / (cos beta) in
  let delta := - 1 / 4 + omega / 2 - zeta * (c / a) * (cos beta) in
  Ok [("GAMMA", V3 0 0 0);
      ("Y", V3 (1 / 2) (1 / 2) 0);
      ("A", V3 0 0 (1 / 2));
      ("M2", V3 (- 1 / 2) (1 / 2) (1 / 2));
      ("V", V3 (1 / 2) 0 0);
      ("V2", V3 0 (1 / 2) 0);
      ("L2", V3 0 (1 / 2) (1 / 2));
      ("I", V3 (- 1 + rho) rho (1 / 2));
      ("I2", V3 (1 - rho) (1 - rho) (1 / 2));
      ("K", V3 (- nu) nu omega);
      ("K2", V3 (- 1 + nu) (1 - nu) (1 - omega));
      ("K4", V3 (1 - nu) nu omega);
      ("H", V3 (- zeta) zeta eta);
      ("H2", V3 zeta (1 - zeta) (1 - eta));
      ("H4", V3 zeta (- zeta) (1 - eta));
      ("N", V3 (- mu) mu delta);
      ("N2", V3 mu (1 - mu) (- delta));
      ("N4", V3 mu (- mu) (- delta));
      ("N6", V3 (1 - mu) mu delta)].

(* /repo/src/wulfric/kpoints/_hpkot_points.py:454-464 *)
Definition hpkot_table_91  : res (dict vec) :=
  Ok [("GAMMA", V3 0 0 0);
      ("Z", V3 0 0 0);
      ("Y", V3 0 (1 / 2) 0);
      ("X", V3 (1 / 2) 0 0);
      ("V", V3 (1 / 2) (1 / 2) 0);
      ("U", V3 (1 / 2) 0 (1 / 2));
      ("T", V3 0 (1 / 2) (1 / 2));
      ("R", V3 (1 / 2) (1 / 2) (1 / 2))].

(* /repo/src/wulfric/kpoints/_hpkot_points.py:467-478 *)
Definition hpkot_table_92  : res (dict vec) :=
  Ok [("GAMMA", V3 0 0 0);
      ("Z", V3 0 0 (1 / 2));
      ("Y", V3 0 (1 / 2) 0);
      ("Y2", V3 0 (- 1 / 2) 0);
      ("X", V3 (1 / 2) 0 0);
      ("V2", V3 (1 / 2) (- 1 / 2) 0);
      ("U2", V3 (- 1 / 2) 0 (1 / 2));
      ("T2", V3 0 (- 1 / 2) (1 / 2));
      ("R2", V3 (- 1 / 2) (- 1 / 2) (1 / 2))].

(* /repo/src/wulfric/kpoints/_sc_points.py:33-39 *)
Definition sc_table_2  : res (dict vec) :=
  Ok [("GAMMA", V3 0 0 0);
      ("M", V3 (1 / 2) (1 / 2) 0);
      ("R", V3 (1 / 2) (1 / 2) (1 / 2));
      ("X", V3 0 (1 / 2) 0)].

(* /repo/src/wulfric/kpoints/_sc_points.py:42-50 *)
Definition sc_table_3  : res (dict vec) :=
  Ok [("GAMMA", V3 0 0 0);
      ("K", V3 (3 / 8) (3 / 8) (3 / 4));
      ("L", V3 (1 / 2) (1 / 2) (1 / 2));
      ("U", V3 (5 / 8) (1 / 4) (5 / 8));
      ("W", V3 (1 / 2) (1 / 4) (3 / 4));
      ("X", V3 (1 / 2) 0 (1 / 2))].

(* /repo/src/wulfric/kpoints/_sc_points.py:53-59 *)
Definition sc_table_4  : res (dict vec) :=
  Ok [("GAMMA", V3 0 0 0);
      ("H", V3 (1 / 2) (- 1 / 2) (1 / 2));
      ("P", V3 (1 / 4) (1 / 4) (1 / 4));
      ("N", V3 0 0 (1 / 2))].

(* /repo/src/wulfric/kpoints/_sc_points.py:62-70 *)
Definition sc_table_5  : res (dict vec) :=
  Ok [("GAMMA", V3 0 0 0);
      ("A", V3 (1 / 2) (1 / 2) (1 / 2));
      ("M", V3 (1 / 2) (1 / 2) 0);
      ("R", V3 0 (1 / 2) (1 / 2));
      ("X", V3 0 (1 / 2) 0);
      ("Z", V3 0 0 (1 / 2))].

(* /repo/src/wulfric/kpoints/_sc_points.py:73-83 *)
Definition sc_table_6 (a : R) (c : R) : res (dict vec) :=
  if Reqb ((sq a)) 0 then Err NotANumber else
  let eta := (1 + sq c / (sq a)) / 4 in
  Ok [("GAMMA", V3 0 0 0);
      ("M", V3 (- 1 / 2) (1 / 2) (1 / 2));
      ("N", V3 0 (1 / 2) 0);
      ("P", V3 (1 / 4) (1 / 4) (1 / 4));
      ("X", V3 0 0 (1 / 2));
      ("Z", V3 eta eta (- eta));
      ("Z1", V3 (- eta) (1 - eta) eta)].

(* /repo/src/wulfric/kpoints/_sc_points.py:86-99 *)
Definition sc_table_7 (a : R) (c : R) : res (dict vec) :=
  if Reqb ((sq c)) 0 then Err NotANumber else
  let eta := (1 + sq a / (sq c)) / 4 in
  if Reqb ((2 * (sq c))) 0 then Err NotANumber else
  let zeta := sq a / (2 * (sq c)) in
  Ok [("GAMMA", V3 0 0 0);
      ("N", V3 0 (1 / 2) 0);
      ("P", V3 (1 / 4) (1 / 4) (1 / 4));
      ("SIGMA", V3 (- eta) eta eta);
      ("SIGMA1", V3 eta (1 - eta) (- eta));
      ("X", V3 0 0 (1 / 2));
      ("Y", V3 (- zeta) zeta (1 / 2));
      ("Y1", V3 (1 / 2) (1 / 2) (- zeta));
      ("Z", V3 (1 / 2) (1 / 2) (- 1 / 2))].

(* /repo/src/wulfric/kpoints/_sc_points.py:102-112 *)
Definition sc_table_8  : res (dict vec) :=
  Ok [("GAMMA", V3 0 0 0);
      ("R", V3 (1 / 2) (1 / 2) (1 / 2));
      ("S", V3 (1 / 2) (1 / 2) 0);
      ("T", V3 0 (1 / 2) (1 / 2));
      ("U", V3 (1 / 2) 0 (1 / 2));
      ("X", V3 (1 / 2) 0 0);
      ("Y", V3 0 (1 / 2) 0);
      ("Z", V3 0 0 (1 / 2))].

(* /repo/src/wulfric/kpoints/_sc_points.py:115-129 *)
Definition sc_table_9 (a : R) (b : R) (c : R) : res (dict vec) :=
  if Reqb ((sq b)) 0 then Err NotANumber else
  if Reqb ((sq c)) 0 then Err NotANumber else
  let eta := (1 + sq a / (sq b) + sq a / (sq c)) / 4 in
  let zeta := (1 + sq a / (sq b) - sq a / (sq c)) / 4 in
  Ok [("GAMMA", V3 0 0 0);
      ("A", V3 (1 / 2) (1 / 2 + zeta) zeta);
      ("A1", V3 (1 / 2) (1 / 2 - zeta) (1 - zeta));
      ("L", V3 (1 / 2) (1 / 2) (1 / 2));
      ("T", V3 1 (1 / 2) (1 / 2));
      ("X", V3 0 eta eta);
      ("X1", V3 1 (1 - eta) (1 - eta));
      ("Y", V3 (1 / 2) 0 (1 / 2));
      ("Z", V3 (1 / 2) (1 / 2) 0)].

(* /repo/src/wulfric/kpoints/_sc_points.py:132-149 *)
Definition sc_table_10 (a : R) (b : R) (c : R) : res (dict vec) :=
  if Reqb ((sq b)) 0 then Err NotANumber else
  if Reqb ((sq c)) 0 then Err NotANumber else
  let eta := (1 + sq a / (sq b) - sq a / (sq c)) / 4 in
  if Reqb ((sq a)) 0 then Err NotANumber else
  let delta := (1 + sq b / (sq a) - sq b / (sq c)) / 4 in
  let phi := (1 + sq c / (sq b) - sq c / (sq a)) / 4 in
  Ok [("GAMMA", V3 0 0 0);
      ("C", V3 (1 / 2) (1 / 2 - eta) (1 - eta));
      ("C1", V3 (1 / 2) (1 / 2 + eta) eta);
      ("D", V3 (1 / 2 - delta) (1 / 2) (1 - delta));
      ("D1", V3 (1 / 2 + delta) (1 / 2) delta);
      ("L", V3 (1 / 2) (1 / 2) (1 / 2));
      ("H", V3 (1 - phi) (1 / 2 - phi) (1 / 2));
      ("H1", V3 phi (1 / 2 + phi) (1 / 2));
      ("X", V3 0 (1 / 2) (1 / 2));
      ("Y", V3 (1 / 2) 0 (1 / 2));
      ("Z", V3 (1 / 2) (1 / 2) 0)].

(* /repo/src/wulfric/kpoints/_sc_points.py:152-172 *)
Definition sc_table_11 (a : R) (b : R) (c : R) : res (dict vec) :=
  if Reqb ((sq c)) 0 then Err NotANumber else
  let zeta := (1 + sq a / (sq c)) / 4 in
  let eta := (1 + sq b / (sq c)) / 4 in
  if Reqb ((4 * (sq c))) 0 then Err NotANumber else
  let delta := (sq b - sq a) / (4 * (sq c)) in
  let mu := (sq a + sq b) / (4 * (sq c)) in
  Ok [("GAMMA", V3 0 0 0);
      ("L", V3 (- mu) mu (1 / 2 - delta));
      ("L1", V3 mu (- mu) (1 / 2 + delta));
      ("L2", V3 (1 / 2 - delta) (1 / 2 + delta) (- mu));
      ("R", V3 0 (1 / 2) 0);
      ("S", V3 (1 / 2) 0 0);
      ("T", V3 0 0 (1 / 2));
      ("W", V3 (1 / 4) (1 / 4) (1 / 4));
      ("X", V3 (- zeta) zeta zeta);
      ("X1", V3 zeta (1 - zeta) (- zeta));
      ("Y", V3 eta (- eta) eta);
      ("Y1", V3 (1 - eta) eta (- eta));
      ("Z", V3 (1 / 2) (1 / 2) (- 1 / 2))].

(* /repo/src/wulfric/kpoints/_sc_points.py:175-189 *)
Definition sc_table_12 (a : R) (b : R) : res (dict vec) :=
  if Reqb ((sq b)) 0 then Err NotANumber else
  let zeta := (1 + sq a / (sq b)) / 4 in
  Ok [("GAMMA", V3 0 0 0);
      ("A", V3 zeta zeta (1 / 2));
      ("A1", V3 (- zeta) (1 - zeta) (1 / 2));
      ("R", V3 0 (1 / 2) (1 / 2));
      ("S", V3 0 (1 / 2) 0);
      ("T", V3 (- 1 / 2) (1 / 2) (1 / 2));
      ("X", V3 zeta zeta 0);
      ("X1", V3 (- zeta) (1 - zeta) 0);
      ("Y", V3 (- 1 / 2) (1 / 2) 0);
      ("Z", V3 0 0 (1 / 2))].

(* /repo/src/wulfric/kpoints/_sc_points.py:192-200 *)
Definition sc_table_13  : res (dict vec) :=
  Ok [("GAMMA", V3 0 0 0);
      ("A", V3 0 0 (1 / 2));
      ("H", V3 (1 / 3) (1 / 3) (1 / 2));
      ("K", V3 (1 / 3) (1 / 3) 0);
      ("L", V3 (1 / 2) 0 (1 / 2));
      ("M", V3 (1 / 2) 0 0)].

(* /repo/src/wulfric/kpoints/_sc_points.py:203-222 *)
Definition sc_table_14 (alpha : R) : res (dict vec) :=
  let alpha := alpha * TORADIANS in
  if Reqb ((2 + 4 * (cos alpha))) 0 then Err ZeroDivisionError else
  let eta := (1 + 4 * (cos alpha)) / (2 + 4 * (cos alpha)) in
  let nu := 3 / 4 - eta / 2 in
  Ok [("GAMMA", V3 0 0 0);
      ("B", V3 eta (1 / 2) (1 - eta));
      ("B1", V3 (1 / 2) (1 - eta) (eta - 1));
      ("F", V3 (1 / 2) (1 / 2) 0);
      ("L", V3 (1 / 2) 0 0);
      ("L1", V3 0 0 (- 1 / 2));
      ("P", V3 eta nu nu);
      ("P1", V3 (1 - nu) (1 - nu) (1 - eta));
      ("P2", V3 nu nu (eta - 1));
      ("Q", V3 (1 - nu) nu 0);
      ("X", V3 nu 0 (- nu));
      ("Z", V3 (1 / 2) (1 / 2) (1 / 2))].

(* /repo/src/wulfric/kpoints/_sc_points.py:225-240 *)
Definition sc_table_15 (alpha : R) : res (dict vec) :=
  let alpha := alpha * TORADIANS in
  if Reqb (cos (alpha / 2)) 0 then Err NotANumber else
  if Reqb ((2 * (sq (tan (alpha / 2))))) 0 then Err ZeroDivisionError else
  let eta := 1 / (2 * (sq (tan (alpha / 2)))) in
  let nu := 3 / 4 - eta / 2 in
  Ok [("GAMMA", V3 0 0 0);
      ("F", V3 (1 / 2) (- 1 / 2) 0);
      ("L", V3 (1 / 2) 0 0);
      ("P", V3 (1 - nu) (- nu) (1 - nu));
      ("P1", V3 nu (nu - 1) (nu - 1));
      ("Q", V3 eta eta eta);
      ("Q1", V3 (1 - eta) (- eta) (- eta));
      ("Z", V3 (1 / 2) (- 1 / 2) (1 / 2))].

(* /repo/src/wulfric/kpoints/_sc_points.py:243-266 *)
Definition sc_table_16 (b : R) (c : R) (alpha : R) : res (dict vec) :=
  let alpha := alpha * TORADIANS in
  if Reqb (c) 0 then Err NotANumber else
  if Reqb ((2 * (sq (sin alpha)))) 0 then Err NotANumber else
  let eta := (1 - b * (cos alpha) / c) / (2 * (sq (sin alpha))) in
  if Reqb (b) 0 then Err NotANumber else
  let nu := 1 / 2 - eta * c * (cos alpha) / b in
  Ok [("GAMMA", V3 0 0 0);
      ("A", V3 (1 / 2) (1 / 2) 0);
      ("C", V3 0 (1 / 2) (1 / 2));
      ("D", V3 (1 / 2) 0 (1 / 2));
      ("D1", V3 (1 / 2) 0 (- 1 / 2));
      ("E", V3 (1 / 2) (1 / 2) (1 / 2));
      ("H", V3 0 eta (1 - nu));
      ("H1", V3 0 (1 - eta) nu);
      ("H2", V3 0 eta (- nu));
      ("M", V3 (1 / 2) eta (1 - nu));
      ("M1", V3 (1 / 2) (1 - eta) nu);
      ("M2", V3 (1 / 2) eta (- nu));
      ("X", V3 0 (1 / 2) 0);
      ("Y", V3 0 0 (1 / 2));
      ("Y1", V3 0 0 (- 1 / 2));
      ("Z", V3 (1 / 2) 0 0)].

(* /repo/src/wulfric/kpoints/_sc_points.py:269-295 *)
Definition sc_table_17 (a : R) (b : R) (c : R) (alpha : R) : res (dict vec) :=
  let alpha := alpha * TORADIANS in
  if Reqb (c) 0 then Err NotANumber else
  if Reqb ((4 * (sq (sin alpha)))) 0 then Err NotANumber else
  let zeta := (2 - b * (cos alpha) / c) / (4 * (sq (sin alpha))) in
  if Reqb (b) 0 then Err NotANumber else
  let eta := 1 / 2 + 2 * zeta * c * (cos alpha) / b in
  if Reqb ((4 * (sq b) * (sq (sin alpha)))) 0 then Err NotANumber else
  let psi := 3 / 4 - sq a / (4 * (sq b) * (sq (sin alpha))) in
  let phi := psi + (3 / 4 - psi) * b * (cos alpha) / c in
  Ok [("GAMMA", V3 0 0 0);
      ("N", V3 (1 / 2) 0 0);
      ("N1", V3 0 (- 1 / 2) 0);
      ("F", V3 (1 - zeta) (1 - zeta) (1 - eta));
      ("F1", V3 zeta zeta eta);
      ("F2", V3 (- zeta) (- zeta) (1 - eta));
      ("F3", V3 (1 - zeta) (- zeta) (1 - eta));
      ("I", V3 phi (1 - phi) (1 / 2));
      ("I1", V3 (1 - phi) (phi - 1) (1 / 2));
      ("L", V3 (1 / 2) (1 / 2) (1 / 2));
      ("M", V3 (1 / 2) 0 (1 / 2));
      ("X", V3 (1 - psi) (psi - 1) 0);
      ("X1", V3 psi (1 - psi) 0);
      ("X2", V3 (psi - 1) (- psi) 0);
      ("Y", V3 (1 / 2) (1 / 2) 0);
      ("Y1", V3 (- 1 / 2) (- 1 / 2) 0);
      ("Z", V3 0 0 (1 / 2))].

(* /repo/src/wulfric/kpoints/_sc_points.py:298-326 *)
Definition sc_table_18 (a : R) (b : R) (c : R) (alpha : R) : res (dict vec) :=
  let alpha := alpha * TORADIANS in
  if Reqb ((sq a)) 0 then Err NotANumber else
  let mu := (1 + sq b / (sq a)) / 4 in
  if Reqb ((2 * (sq a))) 0 then Err NotANumber else
  let delta := b * c * (cos alpha) / (2 * (sq a)) in
  if Reqb (c) 0 then Err NotANumber else
  if Reqb ((4 * (sq (sin alpha)))) 0 then Err NotANumber else
  let zeta := mu - 1 / 4 + (1 - b * (cos alpha) / c) / (4 * (sq (sin alpha))) in
  if Reqb (b) 0 then Err NotANumber else
  let eta := 1 / 2 + 2 * zeta * c * (cos alpha) / b in
  let phi := 1 + zeta - 2 * mu in
  let psi := eta - 2 * delta in
  Ok [("GAMMA", V3 0 0 0);
      ("F", V3 (1 - phi) (1 - phi) (1 - psi));
      ("F1", V3 phi (phi - 1) psi);
      ("F2", V3 (1 - phi) (- phi) (1 - psi));
      ("H", V3 zeta zeta eta);
      ("H1", V3 (1 - zeta) (- zeta) (1 - eta));
      ("H2", V3 (- zeta) (- zeta) (1 - eta));
      ("I", V3 (1 / 2) (- 1 / 2) (1 / 2));
      ("M", V3 (1 / 2) 0 (1 / 2));
      ("N", V3 (1 / 2) 0 0);
      ("N1", V3 0 (- 1 / 2) 0);
      ("X", V3 (1 / 2) (- 1 / 2) 0);
      ("Y", V3 mu mu delta);
      ("Y1", V3 (1 - mu) (- mu) (- delta));
      ("Y2", V3 (- mu) (- mu) (- delta));
      ("Y3", V3 mu (mu - 1) delta);
      ("Z", V3 0 0 (1 / 2))].

(* /repo/src/wulfric/kpoints/_sc_points.py:329-360 *)
Definition sc_table_19 (a : R) (b : R) (c : R) (alpha : R) : res (dict vec) :=
  let alpha := alpha * TORADIANS in
  if Reqb ((sq a)) 0 then Err NotANumber else
  if Reqb (c) 0 then Err NotANumber else
  if Reqb ((sq (sin alpha))) 0 then Err NotANumber else
  let zeta := (sq b / (sq a) + (1 - b * (cos alpha) / c) / (sq (sin alpha))) / 4 in
  if Reqb (b) 0 then Err NotANumber else
  let eta := 1 / 2 + 2 * zeta * c * (cos alpha) / b in
  if Reqb ((4 * (sq a))) 0 then Err NotANumber else
  if Reqb ((2 * (sq a))) 0 then Err NotANumber else
  let mu := eta / 2 + sq b / (4 * (sq a)) - b * c * (cos alpha) / (2 * (sq a)) in
  let nu := 2 * mu - zeta in
  if Reqb ((sq b)) 0 then Err NotANumber else
  let rho := 1 - zeta * (sq a) / (sq b) in
  if Reqb ((2 * b * (cos alpha))) 0 then Err NotANumber else
  let omega := (4 * nu - 1 - sq b * (sq (sin alpha)) / (sq a)) * c / (2 * b * (cos alpha)) in
  let delta := zeta * c * (cos alpha) / b + omega / 2 - 1 / 4 in
  Ok [("GAMMA", V3 0 0 0);
      ("F", V3 nu nu omega);
      ("F1", V3 (1 - nu) (1 - nu) (1 - omega));
      ("F2", V3 nu (nu - 1) omega);
      ("H", V3 zeta zeta eta);
      ("H1", V3 (1 - zeta) (- zeta) (1 - eta));
      ("H2", V3 (- zeta) (- zeta) (1 - eta));
      ("I", V3 rho (1 - rho) (1 / 2));
      ("I1", V3 (1 - rho) (rho - 1) (1 / 2));
      ("L", V3 (1 / 2) (1 / 2) (1 / 2));
      ("M", V3 (1 / 2) 0 (1 / 2));
      ("N", V3 (1 / 2) 0 0);
      ("N1", V3 0 (- 1 / 2) 0);
      ("X", V3 (1 / 2) (- 1 / 2) 0);
      ("Y", V3 mu mu delta);
      ("Y1", V3 (1 - mu) (- mu) (- delta));
      ("Y2", V3 (- mu) (- mu) (- delta));
      ("Y3", V3 mu (mu - 1) delta);
      ("Z", V3 0 0 (1 / 2))].

(* /repo/src/wulfric/kpoints/_sc_points.py:363-373 *)
Definition sc_table_20  : res (dict vec) :=
  Ok [("GAMMA", V3 0 0 0);
      ("L", V3 (1 / 2) (1 / 2) 0);
      ("M", V3 0 (1 / 2) (1 / 2));
      ("N", V3 (1 / 2) 0 (1 / 2));
      ("R", V3 (1 / 2) (1 / 2) (1 / 2));
      ("X", V3 (1 / 2) 0 0);
      ("Y", V3 0 (1 / 2) 0);
      ("Z", V3 0 0 (1 / 2))].

(* /repo/src/wulfric/kpoints/_sc_points.py:376-386 *)
Definition sc_table_21  : res (dict vec) :=
  Ok [("GAMMA", V3 0 0 0);
      ("L", V3 (1 / 2) (- 1 / 2) 0);
      ("M", V3 0 0 (1 / 2));
      ("N", V3 (- 1 / 2) (- 1 / 2) (1 / 2));
      ("R", V3 0 (- 1 / 2) (1 / 2));
      ("X", V3 0 (- 1 / 2) 0);
      ("Y", V3 (1 / 2) 0 0);
      ("Z", V3 (- 1 / 2) 0 (1 / 2))].

(* /repo/src/wulfric/constants/_kpoints.py:26-237 *)
Definition HS_PLOT_NAMES : dict string := [
   ("A", "A"); ("A_P", "A$^{\prime}$"); ("A0", "A$_0$"); ("A0_P", "A$_0^{\prime}$"); ("A1", "A$_1$"); ("A1_P", "A$_1^{\prime}$");
   ("B", "B"); ("B_P", "B$^{\prime}$"); ("B0", "B$_0$"); ("B0_P", "B$_0^{\prime}$"); ("B1", "B$_1$"); ("B1_P", "B$_1^{\prime}$");
   ("B2", "B$_2$"); ("B2_P", "B$_2^{\prime}$"); ("C", "C"); ("C_P", "C$^{\prime}$"); ("C0", "C$_0$"); ("C0_P", "C$_0^{\prime}$");
   ("C1", "C$_1$"); ("C1_P", "C$_1^{\prime}$"); ("C2", "C$_2$"); ("C2_P", "C$_2^{\prime}$"); ("C4", "C$_4$"); ("C4_P", "C$_4^{\prime}$");
   ("D", "D"); ("D_P", "D$^{\prime}$"); ("D0", "D$_0$"); ("D0_P", "D$_0^{\prime}$"); ("D1", "D$_1$"); ("D1_P", "D$_1^{\prime}$");
   ("D2", "D$_2$"); ("D2_P", "D$_2^{\prime}$"); ("DELTA0", "$\Delta_0$"); ("DELTA0_P", "$\Delta_0^{\prime}$"); ("E", "E"); ("E_P", "E$^{\prime}$");
   ("E0", "E$_0$"); ("E0_P", "E$_0^{\prime}$"); ("E2", "E$_2$"); ("E2_P", "E$_2^{\prime}$"); ("E4", "E$_4$"); ("E4_P", "E$_4^{\prime}$");
   ("F", "F"); ("F_P", "F$^{\prime}$"); ("F0", "F$_0$"); ("F0_P", "F$_0^{\prime}$"); ("F1", "F$_1$"); ("F1_P", "F$_1^{\prime}$");
   ("F2", "F$_2$"); ("F2_P", "F$_2^{\prime}$"); ("F3", "F$_4$"); ("F3_P", "F$_4^{\prime}$"); ("F4", "F$_4$"); ("F4_P", "F$_4^{\prime}$");
   ("G", "G"); ("G_P", "G$^{\prime}$"); ("G0", "G$_0$"); ("G0_P", "G$_0^{\prime}$"); ("G2", "G$_2$"); ("G2_P", "G$_2^{\prime}$");
   ("G4", "G$_4$"); ("G4_P", "G$_4^{\prime}$"); ("G6", "G$_6$"); ("G6_P", "G$_6^{\prime}$"); ("GAMMA", "$\Gamma$"); ("GAMMA_P", "$\Gamma^{\prime}$");
   ("H", "H"); ("H_P", "H$^{\prime}$"); ("H0", "H$_0$"); ("H0_P", "H$_0^{\prime}$"); ("H1", "H$_1$"); ("H1_P", "H$_1^{\prime}$");
   ("H2", "H$_2$"); ("H2_P", "H$_2^{\prime}$"); ("H4", "H$_4$"); ("H4_P", "H$_4^{\prime}$"); ("H6", "H$_6$"); ("H6_P", "H$_6^{\prime}$");
   ("I", "I"); ("I_P", "I$^{\prime}$"); ("I1", "I$_1$"); ("I1_P", "I$_1^{\prime}$"); ("I2", "I$_2$"); ("I2_P", "I$_2^{\prime}$");
   ("J0", "J$_0$"); ("J0_P", "J$_0^{\prime}$"); ("K", "K"); ("K_P", "K$^{\prime}$"); ("K2", "K$_2$"); ("K2_P", "K$_2^{\prime}$");
   ("K4", "K$_4$"); ("K4_P", "K$_4^{\prime}$"); ("L", "L"); ("L_P", "L$^{\prime}$"); ("L0", "L$_0$"); ("L0_P", "L$_0^{\prime}$");
   ("L1", "L$_1$"); ("L1_P", "L$_1^{\prime}$"); ("L2", "L$_2$"); ("L2_P", "L$_2^{\prime}$"); ("L4", "L$_4$"); ("L4_P", "L$_4^{\prime}$");
   ("LAMBDA0", "$\Lambda_0$"); ("LAMBDA0_P", "$\Lambda_0^{\prime}$"); ("M", "M"); ("M_P", "M$^{\prime}$"); ("M0", "M$_0$"); ("M0_P", "M$_0^{\prime}$");
   ("M1", "M$_1$"); ("M1_P", "M$_1^{\prime}$"); ("M2", "M$_2$"); ("M2_P", "M$_2^{\prime}$"); ("M4", "M$_4$"); ("M4_P", "M$_4^{\prime}$");
   ("M6", "M$_6$"); ("M6_P", "M$_6^{\prime}$"); ("M8", "M$_8$"); ("M8_P", "M$_8^{\prime}$"); ("N", "N"); ("N_P", "N$^{\prime}$");
   ("N1", "N$_1$"); ("N1_P", "N$_1^{\prime}$"); ("N2", "N$_2$"); ("N2_P", "N$_2^{\prime}$"); ("N4", "N$_4$"); ("N4_P", "N$_4^{\prime}$");
   ("N6", "N$_6$"); ("N6_P", "N$_6^{\prime}$"); ("P", "P"); ("P_P", "P$^{\prime}$"); ("P0", "P$_0$"); ("P0_P", "P$_0^{\prime}$");
   ("P1", "P$_1$"); ("P1_P", "P$_1^{\prime}$"); ("P2", "P$_2$"); ("P2_P", "P$_2^{\prime}$"); ("Q", "Q"); ("Q_P", "Q$^{\prime}$");
   ("Q0", "Q$_0$"); ("Q0_P", "Q$_0^{\prime}$"); ("Q1", "Q$_1$"); ("Q1_P", "Q$_1^{\prime}$"); ("R", "R"); ("R_P", "R$^{\prime}$");
   ("R0", "R$_0$"); ("R0_P", "R$_0^{\prime}$"); ("R2", "R$_2$"); ("R2_P", "R$_2^{\prime}$"); ("S", "S"); ("S_P", "S$^{\prime}$");
   ("S0", "S$_0$"); ("S0_P", "S$_0^{\prime}$"); ("S2", "S$_2$"); ("S2_P", "S$_2^{\prime}$"); ("S4", "S$_4$"); ("S4_P", "S$_4^{\prime}$");
   ("S6", "S$_6$"); ("S6_P", "S$_6^{\prime}$"); ("SIGMA", "$\Sigma$"); ("SIGMA_P", "$\Sigma^{\prime}$"); ("SIGMA0", "$\Sigma_0$"); ("SIGMA0_P", "$\Sigma_0^{\prime}$");
   ("SIGMA1", "$\Sigma_1$"); ("SIGMA1_P", "$\Sigma_1^{\prime}$"); ("T", "T"); ("T_P", "T$^{\prime}$"); ("T2", "T$_2$"); ("T2_P", "T$_2^{\prime}$");
   ("U", "U"); ("U_P", "U$^{\prime}$"); ("U0", "U$_0$"); ("U0_P", "U$_0^{\prime}$"); ("U2", "U$_2$"); ("U2_P", "U$_2^{\prime}$");
   ("V", "V"); ("V_P", "V$^{\prime}$"); ("V0", "V$_0$"); ("V0_P", "V$_0^{\prime}$"); ("V2", "V$_2$"); ("V2_P", "V$_2^{\prime}$");
   ("W", "W"); ("W_P", "W$^{\prime}$"); ("W2", "W$_2$"); ("W2_P", "W$_2^{\prime}$"); ("X", "X"); ("X_P", "X$^{\prime}$");
   ("X1", "X$_1$"); ("X1_P", "X$_1^{\prime}$"); ("X2", "X$_2$"); ("X2_P", "X$_2^{\prime}$"); ("Y", "Y"); ("Y_P", "Y$^{\prime}$");
   ("Y0", "Y$_0$"); ("Y0_P", "Y$_0^{\prime}$"); ("Y1", "Y$_1$"); ("Y1_P", "Y$_1^{\prime}$"); ("Y2", "Y$_2$"); ("Y2_P", "Y$_2^{\prime}$");
   ("Y3", "Y$_3$"); ("Y3_P", "Y$_3^{\prime}$"); ("Y4", "Y$_4$"); ("Y4_P", "Y$_4^{\prime}$"); ("Z", "Z"); ("Z_P", "Z$^{\prime}$");
   ("Z0", "Z$_0$"); ("Z0_P", "Z$_0^{\prime}$"); ("Z1", "Z$_1$"); ("Z1_P", "Z$_1^{\prime}$"); ("Z2", "Z$_2$"); ("Z2_P", "Z$_2^{\prime}$")].
