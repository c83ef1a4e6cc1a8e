(* M_Poscar.v : /repo/src/wulfric/io/_vasp.py  (load_poscar :33-157, dump_poscar :160-288), on the level of
   the text of the file.  Opening of files (:72-90, :264-265) is not modelled: the model of load_poscar
   takes the lines that .readlines() returns and the model of dump_poscar gives the text passed to .write(). *)
From Verif Require Import Base M_Strings M_Dict M_Geometry M_Atoms M_Spglib M_Primitive.
Open Scope string_scope.
Open Scope list_scope.
Open Scope R_scope.

(* ---------------- text ---------------- [/repo/src/wulfric/io/_vasp.py:223, 265] *)
Definition LF : ascii := ascii_of_nat 10.
(* /repo/src/wulfric/io/_vasp.py:94 (text files) *)
Definition CR : ascii := ascii_of_nat 13.
(* /repo/src/wulfric/io/_vasp.py:223 *)
Definition space : ascii := " "%char.
(* str.isspace() for one ASCII character [/repo/src/wulfric/io/_vasp.py:96, 99, 115] *)
Definition is_space (c : ascii) : bool :=
  let n := nat_of_ascii c in (Nat.eqb n 32 || (Nat.leb 9 n && Nat.leb n 13) || (Nat.leb 28 n && Nat.leb n 31))%bool.
(* s.split(): maximal runs of characters that are not whitespace [/repo/src/wulfric/io/_vasp.py:99, 115, 143] *)
Fixpoint pieces (s : string) : list string :=
  match s with
  | EmptyString => [""]
  | String c s' =>
      if is_space c then "" :: pieces s'
      else match pieces s' with
           | [] => [String c ""] (* unreachable *)
           | w :: ws => String c w :: ws
           end
  end.
(* /repo/src/wulfric/io/_vasp.py:99 *)
Definition nonempty (s : string) : bool := match s with EmptyString => false | _ => true end.
(* /repo/src/wulfric/io/_vasp.py:99, 100, 115, 125, 143 *)
Definition words (s : string) : list string := filter nonempty (pieces s).
(* s.strip() [/repo/src/wulfric/io/_vasp.py:96] *)
Fixpoint lstrip (s : string) : string :=
  match s with EmptyString => "" | String c s' => if is_space c then lstrip s' else s end.
(* /repo/src/wulfric/io/_vasp.py:96 *)
Fixpoint rstrip (s : string) : string :=
  match s with
  | EmptyString => ""
  | String c s' => let r := rstrip s' in if (negb (nonempty r) && is_space c)%bool then "" else String c r
  end.
(* /repo/src/wulfric/io/_vasp.py:96 *)
Definition strip (s : string) : string := rstrip (lstrip s).
(* s.replace("\n", " ") [/repo/src/wulfric/io/_vasp.py:223] *)
Definition replace_newlines (s : string) : string := smap (fun c => if Ascii.eqb c LF then space else c) s.
(* .readlines(): every line keeps its "\n" [/repo/src/wulfric/io/_vasp.py:94] *)
Fixpoint readlines (s : string) : list string :=
  match s with
  | EmptyString => []
  | String c s' =>
      if Ascii.eqb c LF then String c "" :: readlines s'
      else match readlines s' with [] => [String c ""] | w :: ws => String c w :: ws end
  end.
(* open(..., "r") translates "\r" and "\r\n" to "\n" [/repo/src/wulfric/io/_vasp.py:76, 83-88] *)
Fixpoint universal_newlines (s : string) : string :=
  match s with
  | EmptyString => ""
  | String c s' =>
      if Ascii.eqb c CR
      then match s' with
           | String c' _ => if Ascii.eqb c' LF then universal_newlines s' else String LF (universal_newlines s')
           | EmptyString => String LF ""
           end
      else String c (universal_newlines s')
  end.

(* ---------------- numbers ---------------- [/repo/src/wulfric/io/_vasp.py:99, 120] *)
Definition digit_value (c : ascii) : option Z :=
  let n := nat_of_ascii c in if (Nat.leb 48 n && Nat.leb n 57)%bool then Some (Z.of_nat (n - 48)) else None.
(* /repo/src/wulfric/io/_vasp.py:99, 120 *)
Definition is_digit (c : ascii) : bool := match digit_value c with Some _ => true | None => false end.
(* python allows single underscores between two digits [/repo/src/wulfric/io/_vasp.py:99, 120] *)
Fixpoint drop_underscores (after_digit : bool) (s : string) : option string :=
  match s with
  | EmptyString => Some ""
  | String c s' =>
      if Ascii.eqb c "_"%char
      then match s' with
           | String c' _ => if (after_digit && is_digit c')%bool then drop_underscores false s' else None
           | EmptyString => None
           end
      else match drop_underscores (is_digit c) s' with Some r => Some (String c r) | None => None end
  end.
(* /repo/src/wulfric/io/_vasp.py:99, 120 *)
Definition take_sign (s : string) : bool * string :=
  match s with
  | String c s' => if Ascii.eqb c "-"%char then (true, s') else if Ascii.eqb c "+"%char then (false, s') else (false, s)
  | EmptyString => (false, s)
  end.
(* value of acc followed by the leading digits of s, how many there are, and the rest of s
   [/repo/src/wulfric/io/_vasp.py:99, 120] *)
Fixpoint take_digits (acc : Z) (n : nat) (s : string) : Z * nat * string :=
  match s with
  | EmptyString => (acc, n, s)
  | String c s' => match digit_value c with Some k => take_digits (acc * 10 + k)%Z (S n) s' | None => (acc, n, s) end
  end.
(* int(s) for a str without whitespace [/repo/src/wulfric/io/_vasp.py:120, 129] *)
Definition parse_int (s : string) : res Z :=
  match drop_underscores false s with
  | None => Err ValueError
  | Some s =>
      let '(neg, s1) := take_sign s in
      let '(m, n, s2) := take_digits 0 0 s1 in
      if (Nat.eqb n 0 || nonempty s2)%bool then Err ValueError else Ok (if neg then - m else m)%Z
  end.
(* /repo/src/wulfric/io/_vasp.py:99 *)
Definition pow10 (n : nat) : R := IZR (10 ^ Z.of_nat n).
(* float(s) for a str without whitespace, the exact value of the literal.  inf and nan give NotANumber;
   overflow of a double is not modelled. [/repo/src/wulfric/io/_vasp.py:99, 100, 143] *)
Definition parse_float (s : string) : res R :=
  match drop_underscores false s with
  | None => Err ValueError
  | Some s =>
      let '(neg, s1) := take_sign s in
      let '(m1, n1, s2) := take_digits 0 0 s1 in
      let '(m2, n2, s3) := match s2 with
                           | String c s' => if Ascii.eqb c "."%char then take_digits m1 0 s' else (m1, O, s2)
                           | EmptyString => (m1, O, s2)
                           end in
      let value := IZR (if neg then - m2 else m2) / pow10 n2 in
      if Nat.eqb (n1 + n2) 0
      then (if mem (lower s1) ["inf"; "infinity"; "nan"] then Err NotANumber else Err ValueError)
      else match s3 with
           | EmptyString => Ok value
           | String c s4 =>
               if Ascii.eqb (lower_ascii c) "e"%char
               then let '(eneg, s5) := take_sign s4 in
                    let '(e, n3, s6) := take_digits 0 0 s5 in
                    if (Nat.eqb n3 0 || nonempty s6)%bool then Err ValueError
                    else Ok (if eneg then value / pow10 (Z.to_nat e) else value * pow10 (Z.to_nat e))
               else Err ValueError
           end
  end.
(* the last k decimal digits of n [/repo/src/wulfric/io/_vasp.py:270, 286] *)
Fixpoint last_digits (k : nat) (n : Z) : string :=
  match k with
  | O => ""
  | S k' => String.append (last_digits k' (n / 10)) (String (ascii_of_nat (48 + Z.to_nat (n mod 10))) "")
  end.
(* f"{x:.{decimals}f}": correctly rounded.  Simplification: a real number has no negative zero.
   [/repo/src/wulfric/io/_vasp.py:270, 286] *)
Definition format_f (decimals : nat) (x : R) : string :=
  let m := Z.abs (round_half_even (x * pow10 decimals)) in
  let t := (10 ^ Z.of_nat decimals)%Z in
  String.append (if Rltb x 0 then "-" else "")
    (String.append (dec (Z.to_nat (m / t)))
       (match decimals with O => "" | _ => String "."%char (last_digits decimals (m mod t)) end)).
(* /repo/src/wulfric/io/_vasp.py:270, 286 *)
Fixpoint spaces (n : nat) : string := match n with O => "" | S n => String space (spaces n) end.
(* f"{x:{decimals + 5}.{decimals}f}": padded with spaces on the left [/repo/src/wulfric/io/_vasp.py:270, 286] *)
Definition format_fixed (decimals : nat) (x : R) : string :=
  let s := format_f decimals x in String.append (spaces (decimals + 5 - String.length s)) s.

(* ---------------- load_poscar /repo/src/wulfric/io/_vasp.py:33-157 ---------------- *)
Definition line (lines : list string) (i : nat) : res string :=
  match nth_error lines i with Some l => Ok l | None => Err IndexError end.
(* /repo/src/wulfric/io/_vasp.py:132, 137 *)
Definition first_char (s : string) : res ascii := match s with String c _ => Ok c | EmptyString => Err IndexError end.
(* three numbers.  Simplification: where the code would go on with an array of another shape
   (a cell with rows of equal length different from three, a line of an atom with one or two
   numbers and direct coordinates), ValueError. [/repo/src/wulfric/io/_vasp.py:100, 143-149] *)
Definition three (l : list R) : res vec := match l with [x; y; z] => Ok (V3 x y z) | _ => Err ValueError end.
(* /repo/src/wulfric/io/_vasp.py:99, 100, 143 *)
Definition parse_floats (s : string) : res (list R) := mapM parse_float (words s).
(* /repo/src/wulfric/io/_vasp.py:106-108, 147 *)
Definition vmul (u v : vec) : vec := V3 (vx u * vx v) (vy u * vy v) (vz u * vz v).

(* /repo/src/wulfric/io/_vasp.py:99-113 the scaled cell and the factors of the Cartesian coordinates *)
Definition apply_scale (scale : list R) (cell : mat) : res (mat * vec) :=
  match scale with
  | [s] =>
      do s <- (if Rltb s 0
               then do v <- get_volume (VolCell cell); if Reqb v 0 then Err NotANumber else Ok (Rabs (s / v))
               else Ok s);
      Ok (mscale s cell, V3 s s s)
  | [s1; s2; s3] =>
      if (Rltb 0 s1 && Rltb 0 s2 && Rltb 0 s3)%bool
      then Ok (M3 (vscale s1 (row1 cell)) (vscale s2 (row2 cell)) (vscale s3 (row3 cell)), V3 s1 s2 s3)
      else Err ValueError
  | _ => Err ValueError
  end.
(* /repo/src/wulfric/io/_vasp.py:141-155 one atom: k is its number, i the number of its species *)
Definition read_atom (lines : list string) (index : nat) (cell : mat) (scale : vec) (cartesian : bool)
           (species_names : option (list string)) (k i : nat) : res (string * vec) :=
  do l <- line lines (index + k);
  do xs <- mapM parse_float (firstn 3 (words l));
  do p <- three xs;
  do p <- (if cartesian then do inv <- minv cell; Ok (vmat (vmul p scale) inv) else Ok p);
  do name <- match species_names with
             | None => Ok (String.append "X" (dec (i + 1)))
             | Some l => match nth_error l i with Some s => Ok s | None => Err IndexError end
             end;
  Ok (name, p).
(* /repo/src/wulfric/io/_vasp.py:141-142 the two loops: the number of the species for every atom *)
Fixpoint species_indices (ions_per_species : list Z) (i : nat) : list nat :=
  match ions_per_species with [] => [] | n :: l => repeat i (Z.to_nat n) ++ species_indices l (S i) end.
(* /repo/src/wulfric/io/_vasp.py:118-122 *)
Definition parses (s : string) : bool := match parse_int s with Ok _ => true | Err _ => false end.
(* The returned atoms dictionary has the keys "names" and "positions", given here as a list of pairs.
   [/repo/src/wulfric/io/_vasp.py:94-157] *)
Definition load_poscar (lines : list string) : res (mat * list (string * vec) * string) :=
  do l <- line lines 0;
  let comment := strip l in
  do l <- line lines 1;
  do scale <- parse_floats l;
  do rows <- mapM (fun l => do xs <- parse_floats l; three xs) (firstn 3 (skipn 2 lines));
  do cell <- match rows with [r1; r2; r3] => Ok (M3 r1 r2 r3) | _ => Err ValueError end;
  do (cell, scale) <- apply_scale scale cell;
  do l <- line lines 5;
  let species := words l in
  let got_species_names := existsb (fun s => negb (parses s)) species in
  do (species_names, species, index) <-
    (if got_species_names then do l <- line lines 6; Ok (Some species, words l, 7%nat) else Ok (None, species, 6%nat));
  do ions_per_species <- mapM parse_int species;
  do l <- line lines index;
  do c <- first_char l;
  let index := if Ascii.eqb (lower_ascii c) "s"%char then S index else index in
  do l <- line lines index;
  do c <- first_char l;
  let c := lower_ascii c in
  let cartesian := (Ascii.eqb c "c"%char || Ascii.eqb c "k"%char)%bool in
  let index := S index in
  do atoms <- mapM (fun ki => read_atom lines index cell scale cartesian species_names (fst ki) (snd ki))
                   (enumerate (species_indices ions_per_species 0));
  Ok (cell, atoms, comment).

(* ---------------- dump_poscar :160-288 ---------------- *)
(* v[i] for a list or a str [/repo/src/wulfric/io/_vasp.py:233, 235, 241] *)
Definition subscript (v : pyval) (i : nat) : res pyval :=
  match v with
  | PList _ | PStr _ => match nth_error (elements v) i with Some x => Ok x | None => Err IndexError end
  | _ => Err TypeError
  end.
(* Simplification: anything but a str as a name or a species raises TypeError
   [/repo/src/wulfric/io/_vasp.py:233, 235] *)
Definition expect_str (v : pyval) : res string := match v with PStr s => Ok s | _ => Err TypeError end.
(* /repo/src/wulfric/io/_vasp.py:231-245 one pass of the loop.  The message of the ValueError reads atoms['name'][i]. *)
Definition atom_entry (cell : mat) (atoms : atoms_dict) (mode : string) (i : nat) : res (string * vec) :=
  do atom_type <-
    (match lookup "species" atoms with
     | Some v => do x <- subscript v i; expect_str x
     | None =>
         do v <- getitem "names" atoms;
         do x <- subscript v i;
         do name <- expect_str x;
         do t <- get_atom_species name false;
         if String.eqb t "X"
         then do v <- getitem "name" atoms; do _ <- subscript v i; Err ValueError
         else Ok t
     end);
  do v <- getitem "positions" atoms;
  do x <- subscript v i;
  do p <- to_row x;
  Ok (atom_type, if String.eqb mode "Direct" then p else vmat p cell).
(* /repo/src/wulfric/io/_vasp.py:248 sorted(atoms_list, key=lambda x: x[0]): a stable sort *)
Fixpoint insert_entry (x : string * vec) (l : list (string * vec)) : list (string * vec) :=
  match l with
  | [] => [x]
  | y :: l' => if str_ltb (fst y) (fst x) then y :: insert_entry x l' else x :: y :: l'
  end.
(* /repo/src/wulfric/io/_vasp.py:248 *)
Definition sort_entries (l : list (string * vec)) : list (string * vec) := fold_right insert_entry [] l.
(* /repo/src/wulfric/io/_vasp.py:251-258 *)
Definition count_species (l : list (string * vec)) : dict nat :=
  fold_left (fun d x => match lookup (fst x) d with
                        | None => setitem (fst x) 1%nat d
                        | Some n => setitem (fst x) (S n) d
                        end) l [].
(* /repo/src/wulfric/io/_vasp.py:267-288 *)
Fixpoint concat_str (l : list string) : string := match l with [] => "" | s :: l => String.append s (concat_str l) end.
(* every item is followed by a space, the row by a new line [/repo/src/wulfric/io/_vasp.py:267-272] *)
Definition row (l : list string) : string :=
  String.append (concat_str (map (fun s => String.append s " ") l)) (String LF "").
(* /repo/src/wulfric/io/_vasp.py:267-272, 283-288 *)
Definition vector_row (decimals : nat) (v : vec) : string := row (map (format_fixed decimals) [vx v; vy v; vz v]).
(* now: the text of the default comment, which contains the current time.  A negative number of
   decimals is refused by the formatting (after the comment has been written).
   [/repo/src/wulfric/io/_vasp.py:212-288] *)
Definition dump_poscar (now : string) (cell : mat) (atoms : atoms_dict) (comment : option string) (decimals : Z) (mode : string) : res string :=
  let comment := match comment with None => now | Some c => replace_newlines c end in
  if negb (mem mode ["Direct"; "Cartesian"]) then Err ValueError
  else
    do v <- getitem "positions" atoms;
    do n <- py_len v;
    do atoms_list <- mapM (atom_entry cell atoms mode) (seq 0 n);
    let atoms_list := sort_entries atoms_list in
    let atom_species := count_species atoms_list in
    if (decimals <? 0)%Z then Err ValueError
    else
      let d := Z.to_nat decimals in
      Ok (concat_str
        ([String.append comment (String LF ""); String.append "1.0" (String LF "");
          vector_row d (row1 cell); vector_row d (row2 cell); vector_row d (row3 cell);
          row (keys atom_species); row (map (fun kv => dec (snd kv)) atom_species);
          String.append mode (String LF "")]
         ++ map (fun x => vector_row d (snd x)) atoms_list)).
