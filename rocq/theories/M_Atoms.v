(* M_Atoms.v : model of
     /repo/src/wulfric/crystal/_crystal_validation.py:28-205  (validate_atoms)
     /repo/src/wulfric/crystal/_atoms.py:28-272               (species, unique names)
     /repo/src/wulfric/_spglib_interface.py:309-387           (get_spglib_types)
   An atoms dictionary is a python dict with string keys whose values are python objects. *)
From Verif Require Import Base M_Strings M_Dict T_Atoms.
Open Scope string_scope.
Open Scope list_scope.

(* The python objects that can sit in an atoms dictionary.  bool is a subclass of int; a numpy
   integer is not.  Simplification: tuples and numpy arrays count as lists; other objects (sets,
   generators, user classes, dicts) are not modelled.
   [/repo/src/wulfric/crystal/_crystal_validation.py:85-203 the values that are inspected] *)
Inductive pyval :=
| PInt (z : Z) | PBool (b : bool) | PNpInt (z : Z) | PFloat (r : R)
| PStr (s : string) | PNone | PList (l : list pyval).
(* /repo/src/wulfric/crystal/_crystal_validation.py:28 the argument atoms *)
Definition atoms_dict := dict pyval.

(* /repo/src/wulfric/crystal/_crystal_validation.py:153 iteration over a str *)
Fixpoint chars (s : string) : list string :=
  match s with EmptyString => [] | String c s' => String c "" :: chars s' end.
(* len(v): TypeError for objects without a length [/repo/src/wulfric/crystal/_crystal_validation.py:89] *)
Definition py_len (v : pyval) : res nat :=
  match v with PList l => Ok (length l) | PStr s => Ok (String.length s) | _ => Err TypeError end.
(* for element in v (only used after len(v) has succeeded)
   [/repo/src/wulfric/crystal/_crystal_validation.py:153, 165, 186] *)
Definition elements (v : pyval) : list pyval :=
  match v with PList l => l | PStr s => map PStr (chars s) | _ => [] end.

(* /repo/src/wulfric/crystal/_crystal_validation.py:131 comparison of the shapes of rows *)
Fixpoint nats_eqb (a b : list nat) : bool :=
  match a, b with
  | [], [] => true
  | x :: a', y :: b' => Nat.eqb x y && nats_eqb a' b'
  | _, _ => false
  end.
(* np.array(v).shape; None = ValueError (inhomogeneous shape).
   Simplification: numpy's limit on the number of dimensions is ignored.
   [/repo/src/wulfric/crystal/_crystal_validation.py:131] *)
Fixpoint np_shape (v : pyval) : option (list nat) :=
  match v with
  | PList l =>
      (fix rows (l : list pyval) (n : nat) (inner : option (list nat)) : option (list nat) :=
         match l with
         | [] => Some (n :: match inner with Some s => s | None => [] end)
         | x :: l' =>
             match np_shape x with
             | None => None
             | Some s =>
                 match inner with
                 | None => rows l' (S n) (Some s)
                 | Some t => if nats_eqb s t then rows l' (S n) (Some t) else None
                 end
             end
         end) l O None
  | _ => Some []
  end.

(* _crystal_validation.py:85-98 the loop that collects the lengths; inl = the function has ended *)
Fixpoint collect_lengths (raise_errors : bool) (d : atoms_dict) (acc : list nat) : res bool + list nat :=
  match d with
  | [] => inr acc
  | (_, v) :: d' =>
      match py_len v with
      | Ok n => collect_lengths raise_errors d' (acc ++ [n])
      | Err e => inl (if raise_errors then Err e else Ok false)
      end
  end.
(* /repo/src/wulfric/crystal/_crystal_validation.py:116-124 *)
Fixpoint check_required (raise_errors : bool) (atoms : atoms_dict) (required : list string) (k : res bool) : res bool :=
  match required with
  | [] => k
  | key :: r =>
      if mem key (keys atoms) then check_required raise_errors atoms r k
      else if raise_errors then Err ValueError else Ok false
  end.
(* /repo/src/wulfric/crystal/_crystal_validation.py:129-149 *)
Definition check_positions (raise_errors : bool) (v : pyval) (k : res bool) : res bool :=
  match np_shape v with
  | None => if raise_errors then Err ValueError else Ok false
  | Some shape =>
      if negb (Nat.eqb (length shape) 2) || negb (Nat.eqb (nth 1 shape O) 3)
      then (if raise_errors then Err ValueError else Ok false)
      else k
  end.
(* /repo/src/wulfric/crystal/_crystal_validation.py:152-161 *)
Fixpoint check_names (raise_errors : bool) (l : list pyval) (k : res bool) : res bool :=
  match l with
  | [] => k
  | PStr _ :: l' => check_names raise_errors l' k
  | _ :: _ => if raise_errors then Err ValueError else Ok false
  end.
(* /repo/src/wulfric/crystal/_crystal_validation.py:164-182 *)
Fixpoint check_species (raise_errors : bool) (l : list pyval) (k : res bool) : res bool :=
  match l with
  | [] => k
  | PStr s :: l' =>
      if negb (String.eqb s "X") && negb (mem s ATOM_SPECIES)
      then (if raise_errors then Err ValueError else Ok false)
      else check_species raise_errors l' k
  | _ :: _ => if raise_errors then Err ValueError else Ok false
  end.
(* /repo/src/wulfric/crystal/_crystal_validation.py:185-203; isinstance(True, int) holds and True >= 1 *)
Fixpoint check_types (raise_errors : bool) (l : list pyval) (k : res bool) : res bool :=
  match l with
  | [] => k
  | PInt z :: l' =>
      if (z <? 1)%Z then (if raise_errors then Err ValueError else Ok false) else check_types raise_errors l' k
  | PBool b :: l' =>
      if negb b then (if raise_errors then Err ValueError else Ok false) else check_types raise_errors l' k
  | _ :: _ => if raise_errors then Err ValueError else Ok false
  end.

(* if key in atoms: check [/repo/src/wulfric/crystal/_crystal_validation.py:129, 152, 164, 185] *)
Definition when_present (key : string) (atoms : atoms_dict) (check : pyval -> res bool -> res bool) (k : res bool) : res bool :=
  match lookup key atoms with Some v => check v k | None => k end.

(* validate_atoms /repo/src/wulfric/crystal/_crystal_validation.py:28-205 *)
Definition validate_atoms (atoms : atoms_dict) (required : list string) (raise_errors : bool) : res bool :=
  match collect_lengths raise_errors atoms [] with
  | inl r => r
  | inr lengths =>
      if Nat.ltb 1 (length (nodup Nat.eq_dec lengths)) then (if raise_errors then Err ValueError else Ok false)
      else
        check_required raise_errors atoms required
          (when_present "positions" atoms (check_positions raise_errors)
             (when_present "names" atoms (fun v => check_names raise_errors (elements v))
                (when_present "species" atoms (fun v => check_species raise_errors (elements v))
                   (when_present "spglib_types" atoms (fun v => check_types raise_errors (elements v))
                      (Ok true)))))
  end.

(* ---- species: _atoms.py ---- *)
(* get_atom_species /repo/src/wulfric/crystal/_atoms.py:28-117, the loop :95-104 *)
Fixpoint deduce (name : string) (atom_species : string) (table : list string) : string :=
  match table with
  | [] => atom_species
  | trial :: t =>
      if contains (lower trial) (lower name)
      then (if Nat.eqb (String.length trial) 2 then trial else deduce name trial t)
      else deduce name atom_species t
  end.
(* /repo/src/wulfric/crystal/_atoms.py:28-117 *)
Definition get_atom_species (name : string) (raise_on_fail : bool) : res string :=
  let s := deduce name "X" ATOM_SPECIES in
  if String.eqb s "X" then (if raise_on_fail then Err FailedToDeduceAtomSpecies else Ok s) else Ok s.

(* the strings of a validated list of str [/repo/src/wulfric/crystal/_atoms.py:178] *)
Definition str_of (v : pyval) : string := match v with PStr s => s | _ => "" end.
(* /repo/src/wulfric/crystal/_atoms.py:178 *)
Definition strs (v : pyval) : list string := map str_of (elements v).

(* get_atoms_species /repo/src/wulfric/crystal/_atoms.py:120-179 *)
Definition get_atoms_species (atoms : atoms_dict) (raise_on_fail : bool) : res (list string) :=
  do _ <- validate_atoms atoms ["names"] true;
  do v <- getitem "names" atoms;
  mapM (fun n => get_atom_species n raise_on_fail) (strs v).

(* ---- get_unique_names :182-272 ---- *)
(* /repo/src/wulfric/crystal/_atoms.py:258-263 counter[name] = [next index, total] *)
Definition count_names (names : list string) : dict (nat * nat) :=
  fold_left (fun c name => match lookup name c with
                           | None => setitem name (1%nat, 1%nat) c
                           | Some (i, t) => setitem name (i, S t) c
                           end) names [].
(* /repo/src/wulfric/crystal/_atoms.py:265-270 *)
Fixpoint number_repeated (names : list string) (c : dict (nat * nat)) : list string :=
  match names with
  | [] => []
  | name :: l =>
      match lookup name c with
      | Some (i, t) =>
          if Nat.ltb 1 t then (name ++ dec i)%string :: number_repeated l (setitem name (S i, t) c)
          else name :: number_repeated l c
      | None => name :: number_repeated l c   (* unreachable: every name was counted *)
      end
  end.
(* /repo/src/wulfric/crystal/_atoms.py:254-255 *)
Fixpoint number_all (names : list string) (i : nat) : list string :=
  match names with [] => [] | name :: l => (name ++ dec (i + 1))%string :: number_all l (S i) end.

(* Returns the result and the list that atoms["names"] holds after the call.
   is_list: atoms["names"] is a list (a str does not support item assignment).
   [/repo/src/wulfric/crystal/_atoms.py:241-272] *)
Definition unique_names (is_list : bool) (names : list string) (strategy : string) : res (list string * list string) :=
  let strategy := lower strategy in
  if negb (mem strategy ["all"; "repeated-only"]) then Err ValueError
  else
    let names_are_not_unique := negb (Nat.eqb (length names) (length (nodup string_dec names))) in
    if names_are_not_unique && String.eqb strategy "all" then Ok (number_all names 0, names)
    else if names_are_not_unique && String.eqb strategy "repeated-only" then
      (if is_list then let r := number_repeated names (count_names names) in Ok (r, r) else Err TypeError)
    else Ok (names, names).
(* /repo/src/wulfric/crystal/_atoms.py:182-272 *)
Definition get_unique_names (atoms : atoms_dict) (strategy : string) : res (list string * list string) :=
  do _ <- validate_atoms atoms ["names"] true;
  do v <- getitem "names" atoms;
  unique_names (match v with PList _ => true | _ => false end) (strs v) strategy.

(* ---- get_spglib_types, _spglib_interface.py:309-387 ---- *)
(* python comparison of str: lexicographic by code point
   [/repo/src/wulfric/_spglib_interface.py:383 the order used by sorted] *)
Fixpoint str_ltb (a b : string) : bool :=
  match a, b with
  | _, EmptyString => false
  | EmptyString, String _ _ => true
  | String c a', String d b' =>
      if Nat.ltb (nat_of_ascii c) (nat_of_ascii d) then true
      else if Ascii.eqb c d then str_ltb a' b' else false
  end.
(* /repo/src/wulfric/_spglib_interface.py:383 *)
Fixpoint insert_str (x : string) (l : list string) : list string :=
  match l with
  | [] => [x]
  | y :: l' => if str_ltb x y then x :: y :: l' else y :: insert_str x l'
  end.
(* sorted(list(set(identifiers))) [/repo/src/wulfric/_spglib_interface.py:383] *)
Definition sorted_set (l : list string) : list string := fold_right insert_str [] (nodup string_dec l).
(* {name: index + 1 for index, name in enumerate(l)} [/repo/src/wulfric/_spglib_interface.py:382-384] *)
Fixpoint enum_dict (l : list string) (i : nat) : dict Z :=
  match l with [] => [] | x :: l' => (x, Z.of_nat (i + 1)) :: enum_dict l' (S i) end.
(* /repo/src/wulfric/_spglib_interface.py:382-385 *)
Definition types_of (identifiers : list string) : res (list Z) :=
  let mapping := enum_dict (sorted_set identifiers) 0 in
  mapM (fun x => getitem x mapping) identifiers.
(* /repo/src/wulfric/_spglib_interface.py:365-374 *)
Definition identifier (name : string) : string :=
  let s := deduce name "X" ATOM_SPECIES in if String.eqb s "X" then name else s.
(* /repo/src/wulfric/_spglib_interface.py:309-387 *)
Definition get_spglib_types (atoms : atoms_dict) : res pyval :=
  do _ <- validate_atoms atoms [] true;
  match lookup "spglib_types" atoms with
  | Some v => Ok v
  | None =>
      do ids <- match lookup "species" atoms, lookup "names" atoms with
                | None, Some v => Ok (map identifier (strs v))
                | Some v, _ => Ok (strs v)
                | None, None => Err ValueError
                end;
      do ts <- types_of ids;
      Ok (PList (map PInt ts))
  end.
