(* M_Variation.v : /repo/src/wulfric/crystal/_sc_variation.py and
   /repo/src/wulfric/crystal/_hpkot_extended_bl_symbol.py *)
From Verif Require Import Base M_Strings M_Dict M_Numerical M_Geometry M_Cell M_Atoms T_Tables M_Spglib M_Conventional M_Primitive.
Open Scope string_scope.
Open Scope list_scope.
Open Scope R_scope.

(* A python function that falls off its end returns None. *)
(* _BCT_variation /repo/src/wulfric/crystal/_sc_variation.py:37-67 *)
Definition BCT_variation (a c : R) : res (option string) :=
  if Rltb c a then Ok (Some "BCT1")
  else if Rltb a c then Ok (Some "BCT2")
  else Err ValueError.
(* 1 / x**2 [/repo/src/wulfric/crystal/_sc_variation.py:110] *)
Definition inv_sqr (x : R) : res R := if Reqb (x * x) 0 then Err ZeroDivisionError else Ok (1 / (x * x)).
(* _ORCF_variation /repo/src/wulfric/crystal/_sc_variation.py:70-116 *)
Definition ORCF_variation (a b c eps : R) : res (option string) :=
  if cwt a CGe b eps || cwt b CGe c eps then Err ValueError
  else
    do ia <- inv_sqr a;
    do ib <- inv_sqr b;
    do ic <- inv_sqr c;
    let expression := ia - ib - ic in
    Ok (if cwt expression CEq 0 eps then Some "ORCF3"
        else if cwt expression CGt 0 eps then Some "ORCF1"
        else if cwt expression CLt 0 eps then Some "ORCF2"
        else None).
(* _RHL_variation /repo/src/wulfric/crystal/_sc_variation.py:119-153 *)
Definition RHL_variation (alpha eps : R) : res (option string) :=
  if cwt alpha CLt 90 eps then Ok (Some "RHL1")
  else if cwt alpha CGt 90 eps then Ok (Some "RHL2")
  else Err ValueError.
(* _MCLC_variation /repo/src/wulfric/crystal/_sc_variation.py:156-227 (the divisions by the lengths c and a**2 of a cell that passed
   get_params are by positive numbers; the check is kept) *)
Definition MCLC_variation (a b c alpha k_gamma distance_eps angle_eps : R) : res (option string) :=
  if cwt alpha CGt 90 angle_eps then Err ValueError
  else
    let alpha := alpha * TORADIANS in
    if cwt k_gamma CEq 90 angle_eps then Ok (Some "MCLC2")
    else if cwt k_gamma CGt 90 angle_eps then Ok (Some "MCLC1")
    else if cwt k_gamma CLt 90 angle_eps then
      if Reqb c 0 || Reqb (a * a) 0 then Err ZeroDivisionError
      else
        let expression := b * cos alpha / c + b * b * (sin alpha * sin alpha) / (a * a) in
        Ok (if cwt expression CEq 1 distance_eps then Some "MCLC4"
            else if cwt expression CLt 1 distance_eps then Some "MCLC3"
            else if cwt expression CGt 1 distance_eps then Some "MCLC5"
            else None)
    else Ok None.
(* _TRI_variation /repo/src/wulfric/crystal/_sc_variation.py:230-289 *)
Definition TRI_variation (ka kb kg eps : R) : res (option string) :=
  if cwt ka CEq 90 eps || cwt kb CEq 90 eps then Err ValueError
  else if cwt kg CEq 90 eps then
    Ok (if cwt ka CGt 90 eps && cwt kb CGt 90 eps then Some "TRI2a"
        else if cwt ka CLt 90 eps && cwt kb CLt 90 eps then Some "TRI2b"
        else None)
  else Ok (if cwt (min3 kg kb ka) CGt 90 eps then Some "TRI1a"
           else if cwt (max3 kg kb ka) CLt 90 eps then Some "TRI1b"
           else Some "TRI").

(* /repo/src/wulfric/crystal/_sc_variation.py:292-436 *)
Definition lattice_type (d : spglib_data) : string := String.append (crystal_family d) (centring_type d).

(* sc_get_variation /repo/src/wulfric/crystal/_sc_variation.py:373-436 *)
Definition sc_get_variation (spglib : option spglib_module) (cell : mat) (atoms : atoms_dict) (arg : data_arg)
  : res (option string) :=
  do d <- obtain_data spglib cell atoms arg;
  let lt := lattice_type d in
  let eps := spglib_angle_or_default d in
  if mem lt ["tI"; "oF"; "hR"; "mC"; "aP"] then
    do (conv_cell, _) <- get_conventional spglib cell atoms "SC" (Data d);
    do p <- get_params conv_cell;
    if String.eqb lt "tI" then BCT_variation (pa p) (pc p)
    else if String.eqb lt "oF" then ORCF_variation (pa p) (pb p) (pc p) (symprec d)
    else if String.eqb lt "hR" then RHL_variation (palpha p) eps
    else if String.eqb lt "mC" then
      do (prim_cell, _) <- get_primitive spglib cell atoms "SC" (Data d);
      do r <- get_reciprocal prim_cell;
      do q <- get_params r;
      MCLC_variation (pa p) (pb p) (pc p) (palpha p) (pgamma q) (symprec d) eps
    else if String.eqb lt "aP" then
      do r <- get_reciprocal conv_cell;
      do q <- get_params r;
      TRI_variation (palpha q) (pbeta q) (pgamma q) eps
    else do v <- getitem lt SC_BRAVAIS_LATTICE_SHORT_NAMES; Ok (Some v)
  else do v <- getitem lt SC_BRAVAIS_LATTICE_SHORT_NAMES; Ok (Some v).

(* hpkot_get_extended_bl_symbol /repo/src/wulfric/crystal/_hpkot_extended_bl_symbol.py:111-234 *)
Definition zbetween (a x b : Z) : bool := (Z.leb a x && Z.leb x b)%bool.
(* /repo/src/wulfric/crystal/_hpkot_extended_bl_symbol.py:35-234 *)
Definition hpkot_get_extended_bl_symbol (spglib : option spglib_module) (cell : mat) (atoms : atoms_dict) (arg : data_arg)
  : res string :=
  do d <- obtain_data spglib cell atoms arg;
  let lt := lattice_type d in
  let n := space_group_number d in
  if mem lt ["cI"; "tP"; "oP"; "mP"] then Ok (String.append lt "1")
  else if String.eqb lt "cP" then
    if zbetween 195 n 206 then Ok "cP1" else if zbetween 207 n 230 then Ok "cP2" else Err PotentialBugError
  else if String.eqb lt "cF" then
    if zbetween 195 n 206 then Ok "cF1" else if zbetween 207 n 230 then Ok "cF2" else Err PotentialBugError
  else if String.eqb lt "hP" then
    if zbetween 143 n 149 || zbetween 159 n 163 || (Z.eqb n 151 || Z.eqb n 153 || Z.eqb n 157) then Ok "hP1" else Ok "hP2"
  else
    do (conv_cell, _) <- get_conventional spglib cell atoms "HPKOT" (Data d);
    do p <- get_params conv_cell;
    let a := pa p in let b := pb p in let c := pc p in
    let beta := pbeta p * TORADIANS in
    if String.eqb lt "tI" then Ok (if Rleb c a then "tI1" else "tI2")
    else if String.eqb lt "oF" then
      do ia <- inv_sqr a;
      do ib <- inv_sqr b;
      do ic <- inv_sqr c;
      Ok (if Rltb (ib + ic) ia then "oF1" else if Rltb (ia + ib) ic then "oF2" else "oF3")
    else if String.eqb lt "oI" then
      if Rleb a c && Rleb b c then Ok "oI1"
      else if Rleb b a && Rleb c a then Ok "oI2"
      else if Rleb a b && Rleb c b then Ok "oI3"
      else Err PotentialBugError
    else if String.eqb lt "oC" then Ok (if Rleb a b then "oC1" else "oC2")
    else if String.eqb lt "oA" then Ok (if Rleb b c then "oA1" else "oA2")
    else if String.eqb lt "hR" then Ok (if Rleb (sqrt 3 * a) (sqrt 2 * c) then "hR1" else "hR2")
    else if String.eqb lt "mC" then
      if Rleb b (a * sin beta) then Ok "mC1"
      else if Reqb c 0 || Reqb b 0 then Err ZeroDivisionError
      else if Rleb (- a * cos beta / c + (a * sin beta / b) * (a * sin beta / b)) 1 then Ok "mC2"
      else Ok "mC3"
    else if String.eqb lt "aP" then
      do r <- get_reciprocal conv_cell;
      do q <- get_params r;
      Ok (if Rleb 90 (palpha q) && Rleb 90 (pbeta q) && Rleb 90 (pgamma q) then "aP2" else "aP3")
    else Err PotentialBugError.
