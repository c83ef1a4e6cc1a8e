(* S_Poscar.v : independent notions about the text of POSCAR files: decimal notation of numbers (the grammar of
   https://docs.python.org/3/library/functions.html#float and #int), words of a line, lines of a text, and the
   documented layout of the file (https://www.vasp.at/wiki/index.php/POSCAR, the link given by load_poscar). *)
From Verif Require Import Base.
From Coq Require Import DecimalString.
Open Scope string_scope.
Open Scope list_scope.
Open Scope R_scope.

(* ---------------- numbers ---------------- *)
Definition digit (c : ascii) (k : Z) : Prop :=
  In (c, k) [("0", 0); ("1", 1); ("2", 2); ("3", 3); ("4", 4); ("5", 5); ("6", 6); ("7", 7); ("8", 8); ("9", 9)]%char%Z.
(* digits s v n: s is a sequence of n digits with the value v; single underscores between two digits are allowed *)
Inductive digits : string -> Z -> nat -> Prop :=
| digits_one c k : digit c k -> digits (String c "") k 1
| digits_next c k s v n : digit c k -> digits s v n -> digits (String c s) (k * 10 ^ Z.of_nat n + v) (S n)
| digits_under c k s v n : digit c k -> digits s v n -> digits (String c (String "_" s)) (k * 10 ^ Z.of_nat n + v) (S n).
Inductive sign : string -> Z -> Prop := sign_none : sign "" 1 | sign_plus : sign "+" 1 | sign_minus : sign "-" (-1).
Inductive integer_word : string -> Z -> Prop :=
| integer_intro g f s v n : sign g f -> digits s v n -> integer_word (g ++ s)%string (f * v).
Inductive mantissa : string -> R -> Prop :=
| mantissa_whole s v n : digits s v n -> mantissa s (IZR v)
| mantissa_dot s v n : digits s v n -> mantissa (s ++ ".")%string (IZR v)
| mantissa_both s v n t w m : digits s v n -> digits t w m -> mantissa (s ++ "." ++ t)%string (IZR v + IZR w / 10 ^ m)
| mantissa_fraction t w m : digits t w m -> mantissa ("." ++ t)%string (IZR w / 10 ^ m).
Inductive exponent : string -> R -> Prop :=
| exponent_none : exponent "" 1
| exponent_some e g f s v n : In e ["e"; "E"] -> sign g f -> digits s v n ->
    exponent (e ++ g ++ s)%string (if (f <? 0)%Z then / 10 ^ Z.to_nat v else 10 ^ Z.to_nat v).
Inductive number_word : string -> R -> Prop :=
| number_intro g f m x e y : sign g f -> mantissa m x -> exponent e y -> number_word (g ++ m ++ e)%string (IZR f * x * y).
(* the words for infinities and "not a number", in any case of letters *)
Inductive spelled_as : string -> string -> Prop :=
| spelled_nil : spelled_as "" ""
| spelled_cons c d s t : In (c, d) [("a", "A"); ("f", "F"); ("i", "I"); ("n", "N"); ("t", "T"); ("y", "Y")]%char ->
    spelled_as s t -> forall x, x = c \/ x = d -> spelled_as (String c s) (String x t).
Definition special_word (s : string) : Prop := exists g f w t, sign g f /\ In w ["inf"; "infinity"; "nan"] /\ spelled_as w t /\ s = (g ++ t)%string.

(* ---------------- words and lines ---------------- *)
Definition blank (c : ascii) : Prop := In (nat_of_ascii c) [9; 10; 11; 12; 13; 28; 29; 30; 31; 32]%nat.
Fixpoint all_chars (P : ascii -> Prop) (s : string) : Prop := match s with EmptyString => True | String c s => P c /\ all_chars P s end.
Definition blanks : string -> Prop := all_chars blank.
Definition word (s : string) : Prop := s <> "" /\ all_chars (fun c => ~ blank c) s.
(* has_words l ws: the line l consists of the words ws, separated by blanks, maybe with blanks around *)
Inductive has_words : string -> list string -> Prop :=
| words_none s : blanks s -> has_words s []
| words_last s w t : blanks s -> word w -> blanks t -> has_words (s ++ w ++ t)%string [w]
| words_more s w c l ws : blanks s -> word w -> blank c -> has_words l ws -> ws <> [] -> has_words (s ++ w ++ String c l)%string (w :: ws).
(* strip_of s t: t is s without the blanks around it *)
Inductive strip_of : string -> string -> Prop :=
| strip_blank s : blanks s -> strip_of s ""
| strip_one s c t : blanks s -> ~ blank c -> blanks t -> strip_of (s ++ String c t)%string (String c "")
| strip_some s c m d t : blanks s -> ~ blank c -> ~ blank d -> blanks t ->
    strip_of (s ++ String c (m ++ String d t))%string (String c (m ++ String d "")).
Definition newline : ascii := "010"%char.
Definition carriage : ascii := "013"%char.
(* the lines of a text, each with the newline that ends it; the last one may have none *)
Inductive lines_of : string -> list string -> Prop :=
| lines_end : lines_of "" []
| lines_last s : s <> "" -> all_chars (fun c => c <> newline) s -> lines_of s [s]
| lines_more s t ls : all_chars (fun c => c <> newline) s -> lines_of t ls -> lines_of (s ++ String newline t)%string ((s ++ String newline "")%string :: ls).
(* how a text file is read: carriage return and carriage return with newline count as one newline *)
Inductive newlines_read : string -> string -> Prop :=
| newlines_nil : newlines_read "" ""
| newlines_both s t : newlines_read s t -> newlines_read (String carriage (String newline s)) (String newline t)
| newlines_single s t : newlines_read s t -> (forall s', s <> String newline s') -> newlines_read (String carriage s) (String newline t)
| newlines_other c s t : c <> carriage -> newlines_read s t -> newlines_read (String c s) (String c t).

(* ---------------- the layout of the file ---------------- *)
Definition three_numbers (ws : list string) (v : vec) : Prop :=
  exists a b c, ws = [a; b; c] /\ number_word a (vx v) /\ number_word b (vy v) /\ number_word c (vz v).
(* a line with a vector of the cell *)
Definition vector_line (l : string) (v : vec) : Prop := exists ws, has_words l ws /\ three_numbers ws v.
(* a line of an atom: three numbers, anything may follow (flags of selective dynamics, a comment) *)
Definition atom_line (l : string) (v : vec) : Prop := exists ws more, has_words l (ws ++ more) /\ three_numbers ws v.
Definition starts_with (cs : list ascii) (l : string) : Prop := exists c s, l = String c s /\ In c cs.
(* the names and the numbers of atoms of every species.  The line with names may be absent, then the species
   are numbered; if it is present, at least one name is not an integer. *)
Inductive species_lines : list string -> list (string * nat) -> Prop :=
| species_named l1 l2 names cs ns : has_words l1 names -> has_words l2 cs -> Forall2 (fun w n => integer_word w (Z.of_nat n)) cs ns ->
    length names = length ns -> (exists name, In name names /\ forall z, ~ integer_word name z) -> species_lines [l1; l2] (combine names ns)
| species_numbered l2 names cs ns : has_words l2 cs -> Forall2 (fun w n => integer_word w (Z.of_nat n)) cs ns ->
    names = map (fun i => ("X" ++ NilZero.string_of_uint (Nat.to_uint (S i)))%string) (seq 0 (length ns)) -> species_lines [l2] (combine names ns).
(* one name per atom *)
Definition names_of (species : list (string * nat)) : list string := flat_map (fun x => repeat (fst x) (snd x)) species.
Inductive selective_lines : list string -> Prop :=
| selective_no : selective_lines []
| selective_yes l : starts_with ["S"; "s"]%char l -> selective_lines [l].
Definition mode_line (l : string) (cartesian : bool) : Prop :=
  starts_with (if cartesian then ["C"; "c"; "K"; "k"]%char else ["D"; "d"]%char) l.
Record poscar := Poscar { file_comment : string; file_scale : R; file_cell : mat; file_species : list (string * nat); file_cartesian : bool; file_positions : list vec }.
(* the lines of a file with the given contents, with any lines after those of the atoms *)
Inductive poscar_file : list string -> poscar -> Prop :=
| poscar_file_intro l0 l1 l2 l3 l4 sp se lm la rest p w :
    strip_of l0 (file_comment p) -> has_words l1 [w] -> number_word w (file_scale p) ->
    vector_line l2 (row1 (file_cell p)) -> vector_line l3 (row2 (file_cell p)) -> vector_line l4 (row3 (file_cell p)) ->
    species_lines sp (file_species p) -> selective_lines se -> mode_line lm (file_cartesian p) ->
    Forall2 atom_line la (file_positions p) -> length (file_positions p) = length (names_of (file_species p)) ->
    poscar_file ([l0; l1; l2; l3; l4] ++ sp ++ se ++ [lm] ++ la ++ rest) p.
