(* S_Zone.v : independent notion of the first Brillouin zone of a lattice.
   The rows of r are a basis of the reciprocal lattice. *)
From Verif Require Import Base.
Open Scope R_scope.

Definition dist2 (x y : vec) : R := dot (vsub x y) (vsub x y).
(* no point of the lattice is closer to k than the origin *)
Definition in_zone (r : mat) (k : vec) : Prop := forall n : zvec, dist2 k vzero <= dist2 k (vmat (ofZv n) r).
(* k is in the zone and as close to another point of the lattice as to the origin *)
Definition on_surface (r : mat) (k : vec) : Prop :=
  in_zone r k /\ exists n : zvec, n <> Zv 0 0 0 /\ dist2 k vzero = dist2 k (vmat (ofZv n) r).

(* Shapes of cells, by scalar products of their vectors *)
Definition right_angles (c : mat) : Prop := dot (row1 c) (row2 c) = 0 /\ dot (row1 c) (row3 c) = 0 /\ dot (row2 c) (row3 c) = 0.
Definition tetragonal (c : mat) : Prop := right_angles c /\ norm (row1 c) = norm (row2 c).
Definition cubic (c : mat) : Prop := tetragonal c /\ norm (row1 c) = norm (row3 c).
Definition hexagonal (c : mat) : Prop :=
  dot (row1 c) (row3 c) = 0 /\ dot (row2 c) (row3 c) = 0 /\ norm (row1 c) = norm (row2 c) /\ 2 * dot (row1 c) (row2 c) = - dot (row1 c) (row1 c).
(* the second vector is at right angles to the others; the others make an obtuse or right angle *)
Definition monoclinic_b (c : mat) : Prop := dot (row1 c) (row2 c) = 0 /\ dot (row2 c) (row3 c) = 0 /\ dot (row1 c) (row3 c) <= 0.
(* the first vector is at right angles to the others, which make an acute or right angle *)
Definition monoclinic_a (c : mat) : Prop := dot (row1 c) (row2 c) = 0 /\ dot (row1 c) (row3 c) = 0 /\ 0 <= dot (row2 c) (row3 c).
Definition rhombohedral_shape (c : mat) : Prop :=
  norm (row1 c) = norm (row2 c) /\ norm (row1 c) = norm (row3 c) /\ dot (row1 c) (row2 c) = dot (row1 c) (row3 c) /\ dot (row1 c) (row2 c) = dot (row2 c) (row3 c).
(* no two of the vectors can be made shorter by adding or subtracting one from the other (true of a
   Niggli cell, whatever the order of its vectors) *)
Definition pair_reduced (u v : vec) : Prop := 2 * Rabs (dot u v) <= dot u u /\ 2 * Rabs (dot u v) <= dot v v.
Definition pairwise_reduced (r : mat) : Prop := pair_reduced (row1 r) (row2 r) /\ pair_reduced (row1 r) (row3 r) /\ pair_reduced (row2 r) (row3 r).
