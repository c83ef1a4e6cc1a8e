(* M_Kpoints.v : model of the k-path strings and of the Kpoints class,
   /repo/src/wulfric/kpoints/_path_and_points.py:48-141 and
   /repo/src/wulfric/_kpoints_class.py:88-596 (from_crystal is in M_Path). *)
From Verif Require Import Base M_Strings M_Dict.
Open Scope R_scope.
Open Scope list_scope.

(* ---------- /repo/src/wulfric/kpoints/_path_and_points.py:80-95 ---------- *)
(* The argument is a str (the isinstance check is the caller's type error).
   [/repo/src/wulfric/kpoints/_path_and_points.py:83-93] *)
Fixpoint collect_subpaths (subpaths : list string) : res (list (list string)) :=
  match subpaths with
  | [] => Ok []
  | s :: rest =>
      let l := split "-" s in
      if Nat.eqb (length l) 1 then Err ValueError
      else do r <- collect_subpaths rest; Ok (if Nat.leb 2 (length l) then l :: r else r)
  end.
(* /repo/src/wulfric/kpoints/_path_and_points.py:48-95 *)
Definition get_path_as_list (path : string) : res (list (list string)) :=
  collect_subpaths (split "|" path).
(* /repo/src/wulfric/kpoints/_path_and_points.py:98-141 *)
Definition get_path_as_string (path : list (list string)) : string :=
  join "|" (map (join "-") path).

(* ---------- /repo/src/wulfric/_kpoints_class.py ---------- *)
(* The object.  k_shared: self.hs_names is the very list object the caller passed as
   names (line 116: no copy is made). [/repo/src/wulfric/_kpoints_class.py:91-124 the attributes] *)
Record kpoints := Kp {
  k_rcell : mat;
  k_names : list string;
  k_coords : dict vec;
  k_labels : dict string;
  k_path : list (list string);
  k_n : Z;
  k_shared : bool
}.

(* What may be assigned to path: a str, an iterable whose items are lists of str, str (a
   str is an iterable of its characters) or something not iterable, or something else.
   [/repo/src/wulfric/_kpoints_class.py:318-319] *)
Inductive subpath_arg := SubList (l : list string) | SubStr (s : string) | SubOther.
(* /repo/src/wulfric/_kpoints_class.py:313-315 *)
Inductive path_arg := PathStr (s : string) | PathList (l : list subpath_arg) | PathOther.

(* /repo/src/wulfric/_kpoints_class.py:324 *)
Fixpoint characters (s : string) : list string :=
  match s with EmptyString => [] | String c s' => String c EmptyString :: characters s' end.

(* /repo/src/wulfric/_kpoints_class.py:311-324 *)
Definition read_subpath (s : subpath_arg) : res (list string) :=
  match s with
  | SubOther => Err ValueError
  | SubList l => if Nat.ltb (length l) 2 then Err ValueError else Ok l
  | SubStr s => if Nat.ltb (String.length s) 2 then Err ValueError else Ok (characters s)
  end.
(* /repo/src/wulfric/_kpoints_class.py:313-325 *)
Definition read_path (p : path_arg) : res (list (list string)) :=
  match p with
  | PathStr s => get_path_as_list s
  | PathList l => mapM read_subpath l
  | PathOther => Err TypeError (* :327 iterates over it *)
  end.

(* path.setter /repo/src/wulfric/_kpoints_class.py:310-342.  The error message of line 330-341 formats the coordinates of all
   names, hence KeyError if one has none. *)
Definition check_path (names : list string) (coords : dict vec) (p : path_arg)
  : res (list (list string)) :=
  do l <- read_path p;
  if forallb (fun s => mem s names) (List.concat l) then Ok l
  else if forallb (fun s => mem s (keys coords)) names then Err ValueError else Err KeyError.

(* __init__ /repo/src/wulfric/_kpoints_class.py:88-124.  names, labels, path may be None; n is not checked. *)
Definition enum_names (pre post : string) (count : nat) : list string :=
  map (fun i => pre ++ dec (i + 1) ++ post)%string (seq 0 count).
(* /repo/src/wulfric/_kpoints_class.py:88-124 *)
Definition init (rcell : mat) (coordinates : list vec) (names labels : option (list string))
  (path : option path_arg) (n : Z) : res kpoints :=
  let count := length coordinates in
  do labels' <- match labels with
                | None => Ok match names with
                             | None => enum_names "K$_" "$" count
                             | Some ns => ns
                             end
                | Some ls => if Nat.eqb (length ls) count then Ok ls else Err ValueError
                end;
  do names' <- match names with
               | None => Ok (enum_names "K" "" count)
               | Some ns => if Nat.eqb (length ns) count then Ok ns else Err ValueError
               end;
  let coords := make_dict (combine names' coordinates) in
  let labs := make_dict (combine names' labels') in
  let path' := match path with None => PathStr (join "-" names') | Some p => p end in
  do l <- check_path names' coords path';
  Ok (Kp rcell names' coords labs l n (match names with None => false | Some _ => true end)).

(* One API call on the object: the new state and the exception raised, if any.
   [/repo/src/wulfric/_kpoints_class.py:371] *)
Inductive n_arg := NInt (z : Z) | NOther.
(* /repo/src/wulfric/_kpoints_class.py:245, 276, 312, 370 *)
Inductive op :=
| AddPoint (name : string) (coordinate : vec) (label : option string) (relative : bool)
| RemovePoint (name : string)
| SetPath (p : path_arg)
| SetN (n : n_arg)
| CallerAppends (name : string). (* the caller appends to the list passed as names *)

(* /repo/src/wulfric/_kpoints_class.py:262-289, 311-342, 370-375 *)
Definition step (k : kpoints) (o : op) : kpoints * option exn :=
  let 'Kp rcell names coords labels path n shared := k in
  match o with
  | AddPoint name c label relative => (* :245-274 *)
      if mem name names then (k, Some ValueError)
      else match (if relative then Ok c else do i <- minv rcell; Ok (vmat c i)) with
           | Err e => (k, Some e)
           | Ok c' =>
               (Kp rcell (names ++ [name]) (setitem name c' coords)
                  (setitem name match label with Some l => l | None => name end labels) path n shared, None)
           end
  | RemovePoint name => (* :276-289 *)
      if mem name names then
        let names' := remove_first name names in
        if mem name (keys coords) then
          if mem name (keys labels) then
            (Kp rcell names' (delitem name coords) (delitem name labels) path n shared, None)
          else (Kp rcell names' (delitem name coords) labels path n shared, Some KeyError)
        else (Kp rcell names' coords labels path n shared, Some KeyError)
      else (k, None)
  | SetPath p => (* :309-342 *)
      match check_path names coords p with
      | Ok l => (Kp rcell names coords labels l n shared, None)
      | Err e => (k, Some e)
      end
  | SetN a => (* :368-375 *)
      match a with
      | NInt z => (Kp rcell names coords labels path z shared, None)
      | NOther => (k, Some ValueError)
      end
  | CallerAppends name =>
      if shared then (Kp rcell (names ++ [name]) coords labels path n shared, None) else (k, None)
  end.
(* a history of calls [/repo/src/wulfric/_kpoints_class.py:37-596] *)
Definition run (k : kpoints) (ops : list op) : kpoints := fold_left (fun k o => fst (step k o)) ops k.

(* labels /repo/src/wulfric/_kpoints_class.py:380-405.  Appends to the last entry at the start of every sub-path but the first. *)
Fixpoint append_last (s : string) (l : list string) : res (list string) :=
  match l with
  | [] => Err IndexError
  | [x] => Ok [(x ++ s)%string]
  | x :: l' => do r <- append_last s l'; Ok (x :: r)
  end.
(* /repo/src/wulfric/_kpoints_class.py:397-403 *)
Fixpoint labels_loop (labels : dict string) (first : bool) (acc : list string) (path : list (list string))
  : res (list string) :=
  match path with
  | [] => Ok acc
  | [] :: _ => Err IndexError
  | (h :: t) :: path' =>
      do lh <- getitem h labels;
      do acc1 <- (if first then Ok (acc ++ [lh]) else append_last ("|" ++ lh) acc);
      do lt <- mapM (fun s => getitem s labels) t;
      labels_loop labels false (acc1 ++ lt) path'
  end.
(* /repo/src/wulfric/_kpoints_class.py:381-405 *)
Definition labels (k : kpoints) : res (list string) := labels_loop (k_labels k) true [] (k_path k).

(* cell used: np.eye(3) if relative else self.rcell [/repo/src/wulfric/_kpoints_class.py:424-427, 463-466, 504-507] *)
Definition basis (k : kpoints) (relative : bool) : mat := if relative then mid else k_rcell k.

(* ticks /repo/src/wulfric/_kpoints_class.py:407-442 *)
Fixpoint ticks_sub (coords : dict vec) (cell : mat) (prev : string) (rest : list string) (acc : list R)
  : res (list R) :=
  match rest with
  | [] => Ok acc
  | name :: rest' =>
      do b <- getitem name coords;
      do a <- getitem prev coords;
      ticks_sub coords cell name rest' (acc ++ [norm (vsub (vmat b cell) (vmat a cell)) + last acc 0])
  end.
(* /repo/src/wulfric/_kpoints_class.py:430-440 *)
Fixpoint ticks_loop (coords : dict vec) (cell : mat) (first : bool) (acc : list R) (path : list (list string))
  : res (list R) :=
  match path with
  | [] => Ok acc
  | sub :: path' =>
      let acc0 := if first then acc ++ [0] else acc in
      do acc1 <- match sub with [] => Ok acc0 | h :: t => ticks_sub coords cell h t acc0 end;
      ticks_loop coords cell false acc1 path'
  end.
(* /repo/src/wulfric/_kpoints_class.py:407-442 *)
Definition ticks (k : kpoints) (relative : bool) : res (list R) :=
  ticks_loop (k_coords k) (basis k relative) true [] (k_path k).

(* np.linspace(a, b, num) for 3-vectors [/repo/src/wulfric/_kpoints_class.py:473-477, 515-519] *)
Definition linspace (a b : vec) (num : Z) : res (list vec) :=
  if (num <? 0)%Z then Err ValueError
  else if (num =? 1)%Z then Ok [a]
  else Ok (map (fun i => vadd a (vscale (INR i / (IZR num - 1)) (vsub b a))) (seq 0 (Z.to_nat num))).

(* points /repo/src/wulfric/_kpoints_class.py:447-482; None for a path without segments *)
Fixpoint points_sub (coords : dict vec) (cell : mat) (n : Z) (prev : string) (rest : list string)
  (acc : option (list vec)) : res (option (list vec)) :=
  match rest with
  | [] => Ok acc
  | name :: rest' =>
      do a <- getitem prev coords;
      do b <- getitem name coords;
      do new <- linspace (vmat a cell) (vmat b cell) (n + 2);
      points_sub coords cell n name rest' (Some match acc with None => new | Some p => p ++ new end)
  end.
(* /repo/src/wulfric/_kpoints_class.py:469-481 *)
Fixpoint points_loop (coords : dict vec) (cell : mat) (n : Z) (acc : option (list vec)) (path : list (list string))
  : res (option (list vec)) :=
  match path with
  | [] => Ok acc
  | sub :: path' =>
      do acc1 <- match sub with [] => Ok acc | h :: t => points_sub coords cell n h t acc end;
      points_loop coords cell n acc1 path'
  end.
(* /repo/src/wulfric/_kpoints_class.py:447-482 *)
Definition points (k : kpoints) (relative : bool) : res (option (list vec)) :=
  points_loop (k_coords k) (basis k relative) (k_n k) None (k_path k).

(* flat_points /repo/src/wulfric/_kpoints_class.py:486-528 *)
Fixpoint flat_sub (coords : dict vec) (cell : mat) (n : Z) (first : bool) (prev : string) (rest : list string)
  (acc : option (list R)) : res (option (list R)) :=
  match rest with
  | [] => Ok acc
  | name :: rest' =>
      do a <- getitem prev coords;
      do b <- getitem name coords;
      do new <- linspace (vmat a cell) (vmat b cell) (n + 2);
      let delta := map (fun p => norm (vsub p (vmat a cell))) new in
      do acc1 <- (if first then Ok delta
                  else match acc with
                       | None => Err TypeError
                       | Some [] => Err IndexError
                       | Some f => Ok (f ++ map (fun d => d + last f 0) delta)
                       end);
      flat_sub coords cell n false name rest' (Some acc1)
  end.
(* /repo/src/wulfric/_kpoints_class.py:510-527 *)
Fixpoint flat_loop (coords : dict vec) (cell : mat) (n : Z) (first : bool) (acc : option (list R)) (path : list (list string))
  : res (option (list R)) :=
  match path with
  | [] => Ok acc
  | sub :: path' =>
      do acc1 <- match sub with [] => Ok acc | h :: t => flat_sub coords cell n first h t acc end;
      flat_loop coords cell n false acc1 path'
  end.
(* /repo/src/wulfric/_kpoints_class.py:486-528 *)
Definition flat_points (k : kpoints) (relative : bool) : res (option (list R)) :=
  flat_loop (k_coords k) (basis k relative) (k_n k) true None (k_path k).

(* hs_table /repo/src/wulfric/_kpoints_class.py:550-596: the lines of the table.  fmt stands for f"{x: {d+3}.{d}f}" and
   pad for f"{name:<{nd}}"; header is the first line. max([]) raises ValueError. *)
Definition hs_row (fmt : R -> string) (pad : string -> string) (k : kpoints) (name : string) : res string :=
  do r <- getitem name (k_coords k);
  let a := vmat r (k_rcell k) in
  Ok (pad name ++ "  " ++ fmt (vx r) ++ " " ++ fmt (vy r) ++ " " ++ fmt (vz r) ++ "  "
      ++ fmt (vx a) ++ " " ++ fmt (vy a) ++ " " ++ fmt (vz a))%string.
(* /repo/src/wulfric/_kpoints_class.py:550-596 *)
Definition hs_table (header : string) (fmt : R -> string) (pad : string -> string) (k : kpoints)
  : res (list string) :=
  match k_names k with
  | [] => Err ValueError
  | _ => do rows <- mapM (hs_row fmt pad k) (k_names k); Ok (header :: rows)
  end.
