(* M_ScExamples.v : /repo/src/wulfric/cell/_sc_examples.py *)
From Verif Require Import Base M_Strings M_Dict M_Geometry M_Cell T_Tables.
Open Scope string_scope.
Open Scope list_scope.
Open Scope R_scope.

(* SC_CUB /repo/src/wulfric/cell/_sc_examples.py:51-99 *)
Definition SC_CUB (a : R) : mat := mk a 0 0 0 a 0 0 0 a.
(* SC_FCC /repo/src/wulfric/cell/_sc_examples.py:102-150 *)
Definition SC_FCC (a : R) : mat := mk 0 (a / 2) (a / 2) (a / 2) 0 (a / 2) (a / 2) (a / 2) 0.
(* SC_BCC /repo/src/wulfric/cell/_sc_examples.py:153-203 *)
Definition SC_BCC (a : R) : mat :=
  mk (- a / 2) (a / 2) (a / 2) (a / 2) (- a / 2) (a / 2) (a / 2) (a / 2) (- a / 2).
(* SC_TET /repo/src/wulfric/cell/_sc_examples.py:206-256 *)
Definition SC_TET (a c : R) : mat := mk a 0 0 0 a 0 0 0 c.
(* SC_BCT /repo/src/wulfric/cell/_sc_examples.py:259-311 *)
Definition SC_BCT (a c : R) : mat :=
  mk (- a / 2) (a / 2) (c / 2) (a / 2) (- a / 2) (c / 2) (a / 2) (a / 2) (- c / 2).
(* SC_ORC /repo/src/wulfric/cell/_sc_examples.py:314-370 *)
Definition SC_ORC (a b c : R) : mat := mk a 0 0 0 b 0 0 0 c.
(* SC_ORCF /repo/src/wulfric/cell/_sc_examples.py:372-427 *)
Definition SC_ORCF (a b c : R) : mat := mk 0 (b / 2) (c / 2) (a / 2) 0 (c / 2) (a / 2) (b / 2) 0.
(* SC_ORCI /repo/src/wulfric/cell/_sc_examples.py:430-487 *)
Definition SC_ORCI (a b c : R) : mat :=
  mk (- a / 2) (b / 2) (c / 2) (a / 2) (- b / 2) (c / 2) (a / 2) (b / 2) (- c / 2).
(* SC_ORCC /repo/src/wulfric/cell/_sc_examples.py:490-545 *)
Definition SC_ORCC (a b c : R) : mat := mk (a / 2) (- b / 2) 0 (a / 2) (b / 2) 0 0 0 c.
(* SC_HEX /repo/src/wulfric/cell/_sc_examples.py:548-601 *)
Definition SC_HEX (a c : R) : mat :=
  mk (a / 2) (- a * sqrt 3 / 2) 0 (a / 2) (a * sqrt 3 / 2) 0 0 0 c.
(* SC_RHL /repo/src/wulfric/cell/_sc_examples.py:603-670; math.sqrt of a negative number raises ValueError, and the
   division by cos(alpha/2) == 0 ZeroDivisionError *)
Definition SC_RHL (a alpha : R) : res mat :=
  let alpha := alpha * TORADIANS in
  if Reqb (cos (alpha / 2)) 0 then Err ZeroDivisionError
  else
    do root <- py_sqrt (1 - cos alpha * cos alpha / (cos (alpha / 2) * cos (alpha / 2)));
    Ok (mk (a * cos (alpha / 2)) (- a * sin (alpha / 2)) 0
           (a * cos (alpha / 2)) (a * sin (alpha / 2)) 0
           (a * cos alpha / cos (alpha / 2)) 0 (a * root)).
(* SC_MCL /repo/src/wulfric/cell/_sc_examples.py:672-732 *)
Definition SC_MCL (a b c alpha : R) : mat :=
  let alpha := alpha * TORADIANS in
  mk a 0 0 0 b 0 0 (c * cos alpha) (c * sin alpha).
(* SC_MCLC /repo/src/wulfric/cell/_sc_examples.py:735-802 *)
Definition SC_MCLC (a b c alpha : R) : mat :=
  let alpha := alpha * TORADIANS in
  mk (a / 2) (b / 2) 0 (- a / 2) (b / 2) 0 0 (c * cos alpha) (c * sin alpha).
(* SC_TRI /repo/src/wulfric/cell/_sc_examples.py:805-880 *)
Definition SC_TRI (a b c alpha beta gamma : R) (input_reciprocal : bool) : res mat :=
  do cell <- from_params a b c alpha beta gamma;
  if input_reciprocal then get_reciprocal cell else Ok cell.

(* str.translate(str.maketrans("", "", chars)) /repo/src/wulfric/cell/_sc_examples.py:933 *)
Fixpoint delete_chars (chars : list ascii) (s : string) : string :=
  match s with
  | EmptyString => EmptyString
  | String c s' => if existsb (Ascii.eqb c) chars then delete_chars chars s' else String c (delete_chars chars s')
  end.
(* /repo/src/wulfric/cell/_sc_examples.py:930-937 *)
Definition correct_inputs : list string :=
  map lower SC_BRAVAIS_LATTICE_VARIATIONS ++
  map (fun x => lower (delete_chars ["1"; "2"; "3"; "4"; "5"; "a"; "b"]%char x)) SC_BRAVAIS_LATTICE_VARIATIONS.

(* sc_get_example /repo/src/wulfric/cell/_sc_examples.py:883-1024; the argument is None for anything that is not a str.
   Falling through every branch leaves `cell` unbound (:1024). *)
Definition sc_get_example (lattice_variation : option string) : res mat :=
  match lattice_variation with
  | None => Err ValueError
  | Some s =>
    if negb (mem (lower s) correct_inputs) then Err ValueError
    else
      let v := lower s in
      if String.eqb v "cub" then Ok (SC_CUB PI)
      else if String.eqb v "fcc" then Ok (SC_FCC PI)
      else if String.eqb v "bcc" then Ok (SC_BCC PI)
      else if String.eqb v "tet" then Ok (SC_TET PI (15 / 10 * PI))
      else if mem v ["bct1"; "bct"] then Ok (SC_BCT (15 / 10 * PI) PI)
      else if String.eqb v "bct2" then Ok (SC_BCT PI (15 / 10 * PI))
      else if String.eqb v "orc" then Ok (SC_ORC PI (15 / 10 * PI) (2 * PI))
      else if mem v ["orcf1"; "orcf"] then Ok (SC_ORCF (7 / 10 * PI) (5 / 4 * PI) (5 / 3 * PI))
      else if String.eqb v "orcf2" then Ok (SC_ORCF (12 / 10 * PI) (5 / 4 * PI) (5 / 3 * PI))
      else if String.eqb v "orcf3" then Ok (SC_ORCF PI (5 / 4 * PI) (5 / 3 * PI))
      else if String.eqb v "orci" then Ok (SC_ORCI PI (13 / 10 * PI) (17 / 10 * PI))
      else if String.eqb v "orcc" then Ok (SC_ORCC PI (13 / 10 * PI) (17 / 10 * PI))
      else if String.eqb v "hex" then Ok (SC_HEX PI (2 * PI))
      else if mem v ["rhl1"; "rhl"] then SC_RHL PI 70
      else if String.eqb v "rhl2" then SC_RHL PI 110
      else if String.eqb v "mcl" then Ok (SC_MCL PI (13 / 10 * PI) (16 / 10 * PI) 75)
      else if mem v ["mclc1"; "mclc"] then Ok (SC_MCLC PI (14 / 10 * PI) (17 / 10 * PI) 80)
      else if String.eqb v "mclc2" then
        Ok (SC_MCLC (14 / 10 * PI * sin (75 * TORADIANS)) (14 / 10 * PI) (17 / 10 * PI) 75)
      else if String.eqb v "mclc3" then
        let b := PI in let x := 11 / 10 in let alpha := 78 in let ralpha := alpha * TORADIANS in
        let c := b * (x * x) / (x * x - 1) * cos ralpha * (18 / 10) in
        let a := x * b * sin ralpha in
        Ok (SC_MCLC a b c alpha)
      else if String.eqb v "mclc4" then
        let b := PI in let x := 12 / 10 in let alpha := 65 in let ralpha := alpha * TORADIANS in
        let c := b * (x * x) / (x * x - 1) * cos ralpha in
        let a := x * b * sin ralpha in
        Ok (SC_MCLC a b c alpha)
      else if String.eqb v "mclc5" then
        let b := PI in let x := 14 / 10 in let alpha := 53 in let ralpha := alpha * TORADIANS in
        let c := b * (x * x) / (x * x - 1) * cos ralpha * (9 / 10) in
        let a := x * b * sin ralpha in
        Ok (SC_MCLC a b c alpha)
      else if mem v ["tri1a"; "tri1"; "tri"; "tria"] then SC_TRI (/ 2) (/ 2) (/ 2) 50 60 80 false
      else if mem v ["tri2a"; "tri2"] then SC_TRI (/ 2) 1 1 100 100 140 false
      else if mem v ["tri1b"; "trib"] then SC_TRI (/ 2) 1 1 100 110 60 false
      else if String.eqb v "tri2b" then SC_TRI (/ 2) 1 2 80 100 40 false
      else Err UnboundLocalError
  end.
