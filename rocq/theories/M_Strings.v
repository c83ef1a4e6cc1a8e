(* M_Strings.v : meaning of the python str methods used in /repo/src/wulfric.
   Strings are Coq strings of ASCII characters (simplification: no unicode). *)
From Verif Require Import Base.
Open Scope string_scope.

(* str.lower on one ASCII character [/repo/src/wulfric/crystal/_atoms.py:97, 242] *)
Definition lower_ascii (c : ascii) : ascii :=
  let n := nat_of_ascii c in
  if (Nat.leb 65 n && Nat.leb n 90)%bool then ascii_of_nat (n + 32) else c.
(* /repo/src/wulfric/crystal/_atoms.py:97, 242 *)
Fixpoint smap (f : ascii -> ascii) (s : string) : string :=
  match s with EmptyString => EmptyString | String c s' => String (f c) (smap f s') end.
(* /repo/src/wulfric/crystal/_atoms.py:97, 242; io/_vasp.py:137 *)
Definition lower (s : string) : string := smap lower_ascii s.

(* s.split(sep) for a one-character separator: always at least one piece.
   [/repo/src/wulfric/kpoints/_path_and_points.py:81, 84] *)
Fixpoint split (sep : ascii) (s : string) : list string :=
  match s with
  | EmptyString => [""]
  | String c s' =>
      if Ascii.eqb c sep then "" :: split sep s'
      else match split sep s' with
           | [] => [String c ""] (* unreachable: split never returns [] *)
           | w :: ws => String c w :: ws
           end
  end.

(* sep.join(l) [/repo/src/wulfric/kpoints/_path_and_points.py:139, 141] *)
Fixpoint join (sep : string) (l : list string) : string :=
  match l with
  | [] => ""
  | [w] => w
  | w :: ws => w ++ sep ++ join sep ws
  end.

(* sub in s [/repo/src/wulfric/crystal/_atoms.py:97] *)
Fixpoint contains (sub s : string) : bool :=
  prefix sub s || match s with EmptyString => false | String _ s' => contains sub s' end.
