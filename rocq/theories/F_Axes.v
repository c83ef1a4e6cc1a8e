(* F_Axes.v : sets of two-fold rotations of a lattice, as integer matrices with entries -1, 0, 1 *)
From Verif Require Import Base.
Open Scope Z_scope.

Definition zone : zmat := Zm 1 0 0 0 1 0 0 0 1.
(* conditionals instead of && so that evaluation stops early *)
Definition zeqb (a b : zmat) : bool :=
  if z11 a =? z11 b then if z12 a =? z12 b then if z13 a =? z13 b then
  if z21 a =? z21 b then if z22 a =? z22 b then if z23 a =? z23 b then
  if z31 a =? z31 b then if z32 a =? z32 b then z33 a =? z33 b
  else false else false else false else false else false else false else false else false.
Lemma zeqb_true a b : zeqb a b = true <-> a = b.
Proof.
  unfold zeqb. split.
  - destruct a, b; cbn.
    repeat match goal with |- context [if ?x =? ?y then _ else _] => destruct (Z.eqb_spec x y); [subst|discriminate] end.
    intros E. apply Z.eqb_eq in E. subst. reflexivity.
  - intros ->. rewrite !Z.eqb_refl. reflexivity.
Qed.
Fixpoint zmem (w : zmat) (l : list zmat) : bool := match l with [] => false | a :: l' => if zeqb w a then true else zmem w l' end.
Lemma zmem_true w l : zmem w l = true <-> In w l.
Proof.
  induction l as [|a l IH]; cbn; [split; [discriminate|intros []]|]. destruct (zeqb w a) eqn:E.
  - apply zeqb_true in E. subst. split; auto.
  - rewrite IH. split; auto. intros [->|I]; auto. rewrite (proj2 (zeqb_true w w) eq_refl) in E. discriminate.
Qed.
Fixpoint all {A} (f : A -> bool) (l : list A) : bool := match l with [] => true | a :: l' => if f a then all f l' else false end.
Lemma all_true {A} (f : A -> bool) l : all f l = true <-> forall x, In x l -> f x = true.
Proof.
  induction l as [|a l IH]; cbn; [split; auto; intros _ x []|]. destruct (f a) eqn:E.
  - rewrite IH. split; [intros H x [<-|I]; auto|auto].
  - split; [discriminate|]. intros H. rewrite <- E. auto.
Qed.
Definition unit3 (x : Z) : bool := match x with 0 | 1 | -1 => true | _ => false end.
Definition smallm (a : zmat) : bool :=
  all unit3 [z11 a; z12 a; z13 a; z21 a; z22 a; z23 a; z31 a; z32 a; z33 a].
Definition ztrace (a : zmat) : Z := z11 a + z22 a + z33 a.

(* all two-fold rotations with entries -1, 0, 1 *)
Definition triples : list zvec :=
  flat_map (fun x => flat_map (fun y => map (fun z => Zv x y z) [-1; 0; 1]) [-1; 0; 1]) [-1; 0; 1].
Definition rows (u v w : zvec) : zmat := Zm (zx u) (zy u) (zz u) (zx v) (zy v) (zz v) (zx w) (zy w) (zz w).
Definition is_two (w : zmat) : bool := (ztrace w =? -1) && zeqb (zmul w w) zone.
Definition twos_def : list zmat :=
  filter is_two (flat_map (fun u => flat_map (fun v => map (fun w => rows u v w) triples) triples) triples).
Definition twos : list zmat := Eval vm_compute in twos_def.
Lemma twos_eq : twos = twos_def.
Proof. vm_compute. reflexivity. Qed.

Definition canon (l : list zmat) : list zmat := filter (fun w => zmem w l) twos.
(* products of x with the rotations of l, that any set of symmetries has to contain; None if one of them is too large *)
Fixpoint news (x : zmat) (l : list zmat) : option (list zmat) :=
  match l with
  | [] => Some []
  | y :: l' =>
      let c := zmul x y in
      if smallm c then
        let d := zmul c x in
        if smallm d then
          let e := zmul y c in
          if smallm e then
            match news x l' with
            | None => None
            | Some m => Some (if is_two c then c :: d :: e :: m else d :: e :: m)
            end
          else None
        else None
      else None
  end.
Fixpoint close (fuel : nat) (todo l : list zmat) : option (list zmat) :=
  match fuel with
  | O => Some l
  | S n => match todo with
           | [] => Some l
           | x :: todo' => if zmem x l then close n todo' l else
                           match news x l with None => None | Some m => close n (m ++ todo') (x :: l) end
           end
  end.
