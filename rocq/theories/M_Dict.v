(* M_Dict.v : meaning of python dict (string keys) and list operations used in
   /repo/src/wulfric.  A dict is an association list in insertion order. *)
From Verif Require Import Base M_Strings.
From Coq Require Import DecimalString DecimalNat.
Open Scope string_scope.

(* /repo/src/wulfric/python dict, e.g. _kpoints_class.py:113-116 *)
Definition dict (A : Type) := list (string * A).

(* d[k] [/repo/src/wulfric/crystal/_atoms.py:178 (atoms["names"])] *)
Fixpoint lookup {A} (k : string) (d : dict A) : option A :=
  match d with
  | [] => None
  | (k', v) :: d' => if String.eqb k k' then Some v else lookup k d'
  end.
(* /repo/src/wulfric/_kpoints_class.py:399 *)
Definition getitem {A} (k : string) (d : dict A) : res A :=
  match lookup k d with Some v => Ok v | None => Err KeyError end.
(* d[k] = v : overwrites in place, or appends [/repo/src/wulfric/_kpoints_class.py:273-274] *)
Fixpoint setitem {A} (k : string) (v : A) (d : dict A) : dict A :=
  match d with
  | [] => [(k, v)]
  | (k', v') :: d' => if String.eqb k k' then (k', v) :: d' else (k', v') :: setitem k v d'
  end.
(* del d[k] [/repo/src/wulfric/_kpoints_class.py:288-289] *)
Fixpoint delitem {A} (k : string) (d : dict A) : dict A :=
  match d with
  | [] => []
  | (k', v') :: d' => if String.eqb k k' then d' else (k', v') :: delitem k d'
  end.
(* /repo/src/wulfric/_kpoints_class.py:229 *)
Definition keys {A} (d : dict A) : list string := map fst d.
(* dict([(k, v), ...]) [/repo/src/wulfric/_kpoints_class.py:113-116] *)
Definition make_dict {A} (l : list (string * A)) : dict A :=
  fold_left (fun d kv => setitem (fst kv) (snd kv) d) l [].

(* k in l, for a list of str [/repo/src/wulfric/_kpoints_class.py:265, 286, 330] *)
Definition mem (k : string) (l : list string) : bool := existsb (String.eqb k) l.
(* l.remove(k), first occurrence (only called when present) [/repo/src/wulfric/_kpoints_class.py:287] *)
Fixpoint remove_first (k : string) (l : list string) : list string :=
  match l with
  | [] => []
  | x :: l' => if String.eqb k x then l' else x :: remove_first k l'
  end.

(* f"{n}" for a non-negative int [/repo/src/wulfric/crystal/_atoms.py:255, 269; _kpoints_class.py:98, 107] *)
Definition dec (n : nat) : string := NilZero.string_of_uint (Nat.to_uint n).
