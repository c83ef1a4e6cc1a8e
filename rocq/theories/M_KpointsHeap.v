(* M_KpointsHeap.v : several Kpoints objects that live at the same time, and the lists of names that they and the
   caller hold, /repo/src/wulfric/_kpoints_class.py.  The coordinates, labels, path and n of an object are its own
   (lines 111-121, 268-274, 324-342 make new arrays, dictionaries and lists); the list of names is a python list
   that may be held by others: the constructor keeps the list it is given (line 116), add_hs_point and
   remove_hs_point change it in place (lines 271, 286). *)
From Verif Require Import Base M_Strings M_Dict M_Kpoints.
Open Scope R_scope.
Open Scope list_scope.

(* An object: the number of its list of names, and the rest.  The field k_names of the rest is not used.
   [/repo/src/wulfric/_kpoints_class.py:88-124] *)
Record kobj := KObj { o_list : nat; o_rest : kpoints }.
(* All lists of names and all objects, in the order of creation. [/repo/src/wulfric/_kpoints_class.py:116] *)
Record world := World { w_lists : list (list string); w_objs : list kobj }.

(* python list assignment l[i] = x [/repo/src/wulfric/_kpoints_class.py:271, 286] *)
Fixpoint set_nth {A} (i : nat) (x : A) (l : list A) : list A :=
  match l, i with
  | [], _ => []
  | _ :: l', O => x :: l'
  | y :: l', S i' => y :: set_nth i' x l'
  end.

(* The object with its names. [/repo/src/wulfric/_kpoints_class.py:116] *)
Definition with_names (k : kpoints) (names : list string) : kpoints :=
  let 'Kp rcell _ coords labels path n _ := k in Kp rcell names coords labels path n false.
(* What a user of the i-th object sees (attributes hs_names, hs_coordinates, hs_labels, path, n, rcell).
   [/repo/src/wulfric/_kpoints_class.py:91-124] *)
Definition view (w : world) (i : nat) : option kpoints :=
  match nth_error (w_objs w) i with
  | None => None
  | Some o => match nth_error (w_lists w) (o_list o) with None => None | Some l => Some (with_names (o_rest o) l) end
  end.

(* What the program may do. [/repo/src/wulfric/_kpoints_class.py:88-90, 245, 276, 310, 369, 534] *)
Inductive kcall :=
| NewList (l : list string)                     (* a list of names, not yet passed to anything *)
| Append (list_number : nat) (name : string)    (* the caller appends to a list *)
| Construct (rcell : mat) (coordinates : list vec) (names : option nat) (labels : option (list string)) (path : option path_arg) (n : Z)
| Copy (i : nat)                                (* k.copy() *)
| Call (i : nat) (o : op).                      (* a method of the i-th object *)

(* /repo/src/wulfric/_kpoints_class.py:88-124, 262-289, 311-342, 370-375, 534-544.  Numbers of lists or objects that do
   not exist cannot occur in a program; then nothing happens. *)
Definition perform (w : world) (c : kcall) : world * option exn :=
  let 'World lists objs := w in
  match c with
  | NewList l => (World (lists ++ [l]) objs, None)
  | Append r name =>
      match nth_error lists r with
      | None => (w, None)
      | Some l => (World (set_nth r (l ++ [name]) lists) objs, None)
      end
  | Construct rcell coordinates names labels path n =>
      match names with
      | None => match init rcell coordinates None labels path n with
                | Err e => (w, Some e)
                | Ok k => (World (lists ++ [k_names k]) (objs ++ [KObj (length lists) k]), None)
                end
      | Some r => match nth_error lists r with
                  | None => (w, None)
                  | Some l => match init rcell coordinates (Some l) labels path n with
                              | Err e => (w, Some e)
                              | Ok k => (World lists (objs ++ [KObj r k]), None)
                              end
                  end
      end
  | Copy i => (* deepcopy: also the list is a new one *)
      match nth_error objs i, view w i with
      | Some o, Some k => (World (lists ++ [k_names k]) (objs ++ [KObj (length lists) (o_rest o)]), None)
      | _, _ => (w, None)
      end
  | Call i a =>
      match nth_error objs i, view w i with
      | Some o, Some k =>
          let '(k', e) := step k a in
          (World (set_nth (o_list o) (k_names k') lists) (set_nth i (KObj (o_list o) k') objs), e)
      | _, _ => (w, None)
      end
  end.
(* a history of calls [/repo/src/wulfric/_kpoints_class.py:37-596] *)
Definition performs (w : world) (cs : list kcall) : world := fold_left (fun w c => fst (perform w c)) cs w.
