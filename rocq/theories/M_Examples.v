(* M_Examples.v : /repo/src/wulfric/crystal/_hpkot_examples/__init__.py *)
From Verif Require Import Base M_Strings M_Dict T_Tables T_Examples M_Poscar.
Open Scope string_scope.
Open Scope list_scope.

(* _[:2] for _ in supported_symbols.  The order of list(set(...)) is not specified and only matters for the
   message; repetitions do not matter either. [/repo/src/wulfric/crystal/_hpkot_examples/__init__.py:77-79] *)
Definition supported_symbols : list string :=
  HPKOT_EXTENDED_BL_SYMBOLS ++ map (substring 0 2) HPKOT_EXTENDED_BL_SYMBOLS.
(* open(POSCAR-files/<symbol>/POSCAR_inversion or POSCAR_noinversion).readlines()
   [/repo/src/wulfric/crystal/_hpkot_examples/__init__.py:93-102, /repo/src/wulfric/io/_vasp.py:74-94] *)
Definition example_lines (symbol : string) (with_inversion : bool) : res (list string) :=
  match find (fun f => (String.eqb (fst (fst f)) symbol && Bool.eqb (snd (fst f)) with_inversion)%bool) example_files with
  | Some (_, _, lines) => Ok (map (fun l => String.append l (String LF "")) lines)
  | None => Err FileNotFoundError
  end.
(* /repo/src/wulfric/crystal/_hpkot_examples/__init__.py:28-104, for a str and a bool; the atoms as in
   load_poscar *)
Definition hpkot_get_example (extended_bl_symbol : string) (with_inversion : bool) : res (mat * list (string * vec)) :=
  if (mem extended_bl_symbol ["oF2"; "oI2"; "oA1"; "oA2"] && with_inversion)%bool then Err ValueError
  else if negb (mem extended_bl_symbol supported_symbols) then Err ValueError
  else
    let symbol :=
      if Nat.eqb (String.length extended_bl_symbol) 2
      then (if String.eqb extended_bl_symbol "aP" then "aP2" else String.append extended_bl_symbol "1")
      else extended_bl_symbol in
    do lines <- example_lines symbol with_inversion;
    do (cell, atoms, _) <- load_poscar lines;
    Ok (cell, atoms).
