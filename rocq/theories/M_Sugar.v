(* M_Sugar.v : model of /repo/src/wulfric/_syntactic_sugar.py:26-188.
   Python objects live in a heap; a dictionary maps string keys to references. *)
From Verif Require Import Base M_Strings M_Dict.
Open Scope string_scope.
Open Scope list_scope.

(* /repo/src/wulfric/_syntactic_sugar.py:26-188 object identities *)
Definition ref := nat.
(* Plain: dict, Sugar: SyntacticSugar (a subclass of dict), Other: not a dict
   [/repo/src/wulfric/_syntactic_sugar.py:26, 120, 178] *)
Inductive pyobj := Plain (d : dict ref) | Sugar (d : dict ref) | Other.
(* the objects of the interpreter [/repo/src/wulfric/_syntactic_sugar.py:125, 183] *)
Definition heap := list pyobj.

(* for key in src: dst[key] = src[key] [/repo/src/wulfric/_syntactic_sugar.py:127-128, 185-186] *)
Definition copy_items (src : dict ref) : dict ref :=
  fold_left (fun dst k => match lookup k src with Some v => setitem k v dst | None => dst end) (keys src) [].

(* add_sugar /repo/src/wulfric/_syntactic_sugar.py:68-130, remove_sugar :133-188; the new object is put at the end of the heap *)
Definition add_sugar (h : heap) (o : ref) : res (heap * ref) :=
  match nth_error h o with
  | Some (Plain d) | Some (Sugar d) => Ok (h ++ [Sugar (copy_items d)], length h)
  | _ => Err ValueError
  end.
(* /repo/src/wulfric/_syntactic_sugar.py:133-188 *)
Definition remove_sugar (h : heap) (o : ref) : res (heap * ref) :=
  match nth_error h o with
  | Some (Plain d) | Some (Sugar d) => Ok (h ++ [Plain (copy_items d)], length h)
  | _ => Err ValueError
  end.

(* Attributes of the class SyntacticSugar (dir(dict) plus the instance attributes): for these
   names attribute access does not reach __getattr__. [/repo/src/wulfric/_syntactic_sugar.py:26, 58-62] *)
Definition class_attributes : list string :=
  ["clear"; "copy"; "fromkeys"; "get"; "items"; "keys"; "pop"; "popitem"; "setdefault"; "update"; "values";
   "__class__"; "__class_getitem__"; "__contains__"; "__delattr__"; "__delitem__"; "__dict__"; "__dir__"; "__doc__"; "__eq__";
   "__format__"; "__ge__"; "__getattr__"; "__getattribute__"; "__getitem__"; "__getstate__"; "__gt__"; "__hash__"; "__init__";
   "__init_subclass__"; "__ior__"; "__iter__"; "__le__"; "__len__"; "__lt__"; "__module__"; "__ne__"; "__new__"; "__or__";
   "__reduce__"; "__reduce_ex__"; "__repr__"; "__reversed__"; "__ror__"; "__setattr__"; "__setitem__"; "__sizeof__"; "__str__";
   "__subclasshook__"; "__weakref__"].

(* /repo/src/wulfric/_syntactic_sugar.py:58-65 *)
Inductive outcome := OValue (v : ref) | OMethod (name : string) | ODone | OExc (e : exn).
(* /repo/src/wulfric/_syntactic_sugar.py:58-65 *)
Inductive op := Get (k : string) | Put (k : string) (v : ref) | Del (k : string).

(* candy[k], candy[k] = v, del candy[k] [/repo/src/wulfric/_syntactic_sugar.py:58-65] *)
Definition item_step (d : dict ref) (o : op) : dict ref * outcome :=
  match o with
  | Get k => (d, match lookup k d with Some v => OValue v | None => OExc KeyError end)
  | Put k v => (setitem k v d, ODone)
  | Del k => match lookup k d with Some _ => (delitem k d, ODone) | None => (d, OExc KeyError) end
  end.
(* candy.k, candy.k = v, del candy.k : SyntacticSugar /repo/src/wulfric/_syntactic_sugar.py:58-65 *)
Definition attr_step (d : dict ref) (o : op) : dict ref * outcome :=
  match o with
  | Get k => (d, if mem k class_attributes then OMethod k
                 else match lookup k d with Some v => OValue v | None => OExc AttributeError end)
  | Put k v => (setitem k v d, ODone)                        (* __setattr__ = dict.__setitem__ *)
  | Del k => match lookup k d with Some _ => (delitem k d, ODone) | None => (d, OExc KeyError) end
  end.                                                        (* __delattr__ = dict.__delitem__ *)
(* a history of operations [/repo/src/wulfric/_syntactic_sugar.py:58-65] *)
Fixpoint run (step : dict ref -> op -> dict ref * outcome) (d : dict ref) (l : list op) : dict ref * list outcome :=
  match l with
  | [] => (d, [])
  | o :: l' => let (d1, r) := step d o in let (d2, rs) := run step d1 l' in (d2, r :: rs)
  end.

(* a history of attribute operations on the object at o of the heap [/repo/src/wulfric/_syntactic_sugar.py:64-65] *)
Fixpoint set_nth {A} (l : list A) (i : nat) (x : A) : list A :=
  match l, i with
  | [], _ => []
  | _ :: l', O => x :: l'
  | y :: l', S i' => y :: set_nth l' i' x
  end.
(* /repo/src/wulfric/_syntactic_sugar.py:58-65 *)
Definition run_on (h : heap) (o : ref) (l : list op) : heap * list outcome :=
  match nth_error h o with
  | Some (Sugar d) => let (d', rs) := run attr_step d l in (set_nth h o (Sugar d'), rs)
  | _ => (h, [])   (* attribute access on a plain dict is not modelled *)
  end.
