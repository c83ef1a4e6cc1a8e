(* S_Crystal.v : independent notion of "the crystal described by a cell and its atoms". *)
From Verif Require Import Base.
Open Scope R_scope.

(* The Cartesian point x is occupied by an atom of type t: x is the position of some atom of the
   cell, translated by an integer combination of the lattice vectors. *)
Definition occupied {T} (cell : mat) (ps : list vec) (ts : list T) (x : vec) (t : T) : Prop :=
  exists i p n, nth_error ps i = Some p /\ nth_error ts i = Some t /\
                x = vmat (vadd p (ofZv n)) cell.
Definition same_crystal {T} (c : mat) (ps : list vec) (ts : list T)
           (c' : mat) (ps' : list vec) (ts' : list T) : Prop :=
  forall x t, occupied c ps ts x t <-> occupied c' ps' ts' x t.
