(* M_Primitive.v : /repo/src/wulfric/crystal/_primitive.py *)
From Verif Require Import Base M_Strings M_Dict M_Numerical M_Geometry M_Atoms T_Tables M_Spglib M_Conventional.
Open Scope string_scope.
Open Scope list_scope.
Open Scope R_scope.

(* round(x, 0) and np.round: to the nearest integer, ties to even [/repo/src/wulfric/crystal/_primitive.py:66, 72] *)
Definition round_half_even (x : R) : Z :=
  let f := Int_part x in
  if Rltb (x - IZR f) (/ 2) then f
  else if Rltb (/ 2) (x - IZR f) then (f + 1)%Z
  else if Z.even f then f else (f + 1)%Z.
(* np.round(x, decimals=8) [/repo/src/wulfric/crystal/_primitive.py:72] *)
Definition round8 (x : R) : R := IZR (round_half_even (x * 100000000)) / 100000000.
(* x % 1 [/repo/src/wulfric/crystal/_primitive.py:75, 78] *)
Definition mod1 (x : R) : R := x - IZR (Int_part x).
(* /repo/src/wulfric/crystal/_primitive.py:72-78 *)
Definition vmap (f : R -> R) (v : vec) : vec := V3 (f (vx v)) (f (vy v)) (f (vz v)).

(* ---- _get_unique :33-132 ---- *)
(* /repo/src/wulfric/crystal/_primitive.py:72-78 rounding and moving to the 000 cell; the remainder is taken twice *)
Definition normal_position (p : vec) : vec := vmap (fun x => mod1 (mod1 (round8 x))) p.
(* /repo/src/wulfric/crystal/_primitive.py:81-89 distances between relative coordinates, np.isclose to zero *)
Definition same_atoms (tol : R) (p q : vec) : bool := Rleb (norm (vsub p q)) tol.
(* /repo/src/wulfric/crystal/_primitive.py:92 number of atoms that are the same as the given one *)
Definition n_equiv (tol : R) (ps : list vec) (p : vec) : Z :=
  Z.of_nat (length (filter (same_atoms tol p) ps)).
(* /repo/src/wulfric/crystal/_primitive.py:110-130 the loop.  The boolean mask available_atoms is represented by the increasing list of
   the available atoms (index and position); the first of them is processed next.  The fuel is the
   number of atoms. *)
Fixpoint unique_loop (tol : R) (fuel : nat) (available : list (nat * vec)) : list nat :=
  match fuel, available with
  | S fuel, (i, p) :: rest => i :: unique_loop tol fuel (filter (fun jq => negb (same_atoms tol p (snd jq))) rest)
  | _, _ => []
  end.
(* /repo/src/wulfric/crystal/_primitive.py:292 *)
Definition enumerate {A} (l : list A) : list (nat * A) := combine (seq 0 (length l)) l.
(* /repo/src/wulfric/crystal/_primitive.py:132 *)
Definition at_indices {A} (l : list A) (idx : list nat) : list A :=
  concat (map (fun i => match nth_error l i with Some x => [x] | None => [] end) idx).
(* boolean masks must have the length of the array they index, hence the IndexError for types
   [/repo/src/wulfric/crystal/_primitive.py:33-132] *)
Definition get_unique (positions : list vec) (types : list Z) (repetition_number : R) (distance_tolerance : R)
  : res (list vec * list Z) :=
  let rep := round_half_even repetition_number in
  let ps := map normal_position positions in
  if negb (forallb (fun p => Z.eqb (n_equiv distance_tolerance ps p) rep) ps) then Err ValueError
  else match ps with
       | [] => Err IndexError
       | _ => if negb (Nat.eqb (length types) (length ps)) then Err IndexError
              else
                let idx := unique_loop distance_tolerance (length ps) (enumerate ps) in
                Ok (at_indices ps idx, at_indices types idx)
       end.

(* /repo/src/wulfric/crystal/_primitive.py:291-294 types_mapping: the first index of each type *)
Fixpoint first_index (types : list Z) (i : nat) (t : Z) : option nat :=
  match types with
  | [] => None
  | t' :: l => if Z.eqb t t' then Some i else first_index l (S i) t
  end.

(* ---- get_primitive /repo/src/wulfric/crystal/_primitive.py:232-307 ---- *)
Definition primitive_structure (spglib : option spglib_module) (cell : mat) (atoms : atoms_dict)
           (d : spglib_data) (convention : string) : res (mat * list vec * list Z) :=
  let convention := lower convention in
  if String.eqb convention "spglib" then Ok (primitive_cell d, primitive_positions d, primitive_types d)
  else if mem convention ["hpkot"; "sc"] then
    let lattice_type := String.append (crystal_family d) (centring_type d) in
    do (conv_cell, conv_atoms) <- get_conventional spglib cell atoms convention (Data d);
    do matrix <- (if String.eqb convention "hpkot" then getitem lattice_type HPKOT_CONVENTIONAL_TO_PRIMITIVE
                  else if String.eqb convention "sc" then getitem lattice_type SC_CONVENTIONAL_TO_PRIMITIVE
                  else Err PotentialBugError);
    let prim_cell := mmul (tr matrix) conv_cell in
    do v <- getitem "positions" conv_atoms;
    do ps <- positions_of v;
    do non_unique <- reexpress ps conv_cell prim_cell;
    do tv <- getitem "spglib_types" conv_atoms;
    do (ps', ts') <- get_unique non_unique (ints tv) (Rabs (det conv_cell / det prim_cell)) (symprec d);
    Ok (prim_cell, ps', ts')
  else Err ConventionNotSupported.
(* /repo/src/wulfric/crystal/_primitive.py:135-307 *)
Definition get_primitive (spglib : option spglib_module) (cell : mat) (atoms : atoms_dict)
           (convention : string) (arg : data_arg) : res (mat * atoms_dict) :=
  do d <- obtain_data spglib cell atoms arg;
  do (c, ps, ts) <- primitive_structure spglib cell atoms d convention;
  do new <- make_atoms (first_index (original_types d) 0) ps ts atoms;
  Ok (c, new).
