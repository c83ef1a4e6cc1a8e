(* S_Symmetry.v : equivalent points of reciprocal space and faces of the first Brillouin zone, stated for
   the lattice of all integer combinations of the rows of r. *)
From Verif Require Import Base S_Zone.
Open Scope string_scope.
Open Scope list_scope.
Open Scope R_scope.

Definition in_lattice (r : mat) (k : vec) : Prop := exists n : zvec, k = vmat (ofZv n) r.
(* Q is a rotation, reflection or inversion that maps the lattice to itself *)
Definition symmetry (r Q : mat) : Prop :=
  (forall u v, dot (vmat u Q) (vmat v Q) = dot u v) /\ (forall k, in_lattice r k <-> in_lattice r (vmat k Q)).
(* two points are equivalent if a symmetry of the lattice moves one to the other, up to a vector of the lattice *)
Definition equivalent (r : mat) (k k' : vec) : Prop := exists Q, symmetry r Q /\ in_lattice r (vsub k' (vmat k Q)).

(* the letters of a name: up to the first character that is not a letter ("X" for "X1" and for "X1_P") *)
Definition is_letter (c : ascii) : bool := let n := N_of_ascii c in ((65 <=? n)%N && (n <=? 90)%N)%bool.
Fixpoint letters (s : string) : string :=
  match s with String c s' => if is_letter c then String c (letters s') else "" | EmptyString => "" end.

(* the plane between the origin and the vector n of the lattice: the points that are equally far from both *)
Definition on_plane (r : mat) (n : zvec) (k : vec) : Prop := dist2 k vzero = dist2 k (vmat (ofZv n) r).
(* y follows x in the path *)
Definition follows (l : list (list string)) (x y : string) : Prop := exists s pre post, In s l /\ s = pre ++ x :: y :: post.
(* the points between k and k' *)
Definition between (k k' : vec) (t : R) : vec := vadd (vscale (1 - t) k) (vscale t k').
