(* Base.v : exceptions as values, numbers, 3-vectors and 3x3 matrices.

   Not tied to one file of /repo: this is the meaning given to the python and
   numpy primitives used all over /repo/src/wulfric.  Floats are exact reals
   (simplification: no rounding, no NaN, no infinity). *)
From Coq Require Export Reals Lra Lia ZArith List String Ascii Bool.
Export ListNotations.
Open Scope R_scope.

(* Python exceptions that wulfric (or the libraries it calls) raises.
   The wulfric-specific ones are from /repo/src/wulfric/_exceptions.py:21-98. *)
Inductive exn :=
| ValueError | TypeError | KeyError | IndexError | AttributeError
| LinAlgError | UnboundLocalError | PotentialBugError
| NiggliReductionFailed | ConventionNotSupported | UnexpectedError
| ZeroDivisionError | ImportError | RuntimeError | FailedToDeduceAtomSpecies
| FileNotFoundError
| NotANumber. (* not a python exception: marks results where numpy would return nan *)

Inductive res (A : Type) :=
| Ok (a : A)
| Err (e : exn).
Arguments Ok {A} a.
Arguments Err {A} e.

Definition bind {A B} (r : res A) (f : A -> res B) : res B :=
  match r with Ok a => f a | Err e => Err e end.
Notation "'do' x <- r ; k" := (bind r (fun x => k))
  (at level 200, x pattern, r at level 100, k at level 200, right associativity).

Definition is_ok {A} (r : res A) : bool := match r with Ok _ => true | Err _ => false end.

Fixpoint mapM {A B} (f : A -> res B) (l : list A) : res (list B) :=
  match l with
  | [] => Ok []
  | x :: l' => do y <- f x; do ys <- mapM f l'; Ok (y :: ys)
  end.

(* Boolean comparisons of reals (python "<", "<=", "=="). *)
Definition Rltb (x y : R) : bool := if Rlt_dec x y then true else false.
Definition Rleb (x y : R) : bool := if Rle_dec x y then true else false.
Definition Reqb (x y : R) : bool := if Req_EM_T x y then true else false.

Lemma Rltb_spec x y : reflect (x < y) (Rltb x y).
Proof. unfold Rltb; destruct (Rlt_dec x y); constructor; assumption. Qed.
Lemma Rleb_spec x y : reflect (x <= y) (Rleb x y).
Proof. unfold Rleb; destruct (Rle_dec x y); constructor; assumption. Qed.
Lemma Reqb_spec x y : reflect (x = y) (Reqb x y).
Proof. unfold Reqb; destruct (Req_EM_T x y); constructor; assumption. Qed.

Lemma Rltb_true x y : Rltb x y = true <-> x < y.
Proof. destruct (Rltb_spec x y); split; intros; try discriminate; auto; contradiction. Qed.
Lemma Rltb_false x y : Rltb x y = false <-> y <= x.
Proof. destruct (Rltb_spec x y); split; intros; try discriminate; auto; lra. Qed.
Lemma Rleb_true x y : Rleb x y = true <-> x <= y.
Proof. destruct (Rleb_spec x y); split; intros; try discriminate; auto; contradiction. Qed.
Lemma Rleb_false x y : Rleb x y = false <-> y < x.
Proof. destruct (Rleb_spec x y); split; intros; try discriminate; auto; lra. Qed.
Lemma Reqb_true x y : Reqb x y = true <-> x = y.
Proof. destruct (Reqb_spec x y); split; intros; try discriminate; auto; contradiction. Qed.
Lemma Reqb_false x y : Reqb x y = false <-> x <> y.
Proof. destruct (Reqb_spec x y); split; intros; try discriminate; auto; contradiction. Qed.

(* ------------------------------------------------------------------ *)
(* 3-vectors: numpy arrays of shape (3,).                              *)
Record vec := V3 { vx : R; vy : R; vz : R }.

Definition vadd (u v : vec) := V3 (vx u + vx v) (vy u + vy v) (vz u + vz v).
Definition vsub (u v : vec) := V3 (vx u - vx v) (vy u - vy v) (vz u - vz v).
Definition vneg (u : vec) := V3 (- vx u) (- vy u) (- vz u).
Definition vscale (k : R) (u : vec) := V3 (k * vx u) (k * vy u) (k * vz u).
Definition vzero := V3 0 0 0.
Definition dot (u v : vec) := vx u * vx v + vy u * vy v + vz u * vz v.
Definition cross (u v : vec) :=
  V3 (vy u * vz v - vz u * vy v) (vz u * vx v - vx u * vz v) (vx u * vy v - vy u * vx v).
Definition norm (u : vec) := sqrt (dot u u).

(* 3x3 matrices: numpy arrays of shape (3,3), rows are vectors. *)
Record mat := M3 { row1 : vec; row2 : vec; row3 : vec }.

Definition mk (a b c d e f g h i : R) := M3 (V3 a b c) (V3 d e f) (V3 g h i).
Definition mid := mk 1 0 0 0 1 0 0 0 1.
Definition col1 (m : mat) := V3 (vx (row1 m)) (vx (row2 m)) (vx (row3 m)).
Definition col2 (m : mat) := V3 (vy (row1 m)) (vy (row2 m)) (vy (row3 m)).
Definition col3 (m : mat) := V3 (vz (row1 m)) (vz (row2 m)) (vz (row3 m)).
Definition tr (m : mat) := M3 (col1 m) (col2 m) (col3 m).
(* v @ m *)
Definition vmat (v : vec) (m : mat) :=
  V3 (dot v (col1 m)) (dot v (col2 m)) (dot v (col3 m)).
(* m @ v *)
Definition matv (m : mat) (v : vec) :=
  V3 (dot (row1 m) v) (dot (row2 m) v) (dot (row3 m) v).
(* m @ n *)
Definition mmul (m n : mat) :=
  M3 (vmat (row1 m) n) (vmat (row2 m) n) (vmat (row3 m) n).
Definition mscale (k : R) (m : mat) :=
  M3 (vscale k (row1 m)) (vscale k (row2 m)) (vscale k (row3 m)).
Definition mneg (m : mat) := M3 (vneg (row1 m)) (vneg (row2 m)) (vneg (row3 m)).
Definition det (m : mat) := dot (row1 m) (cross (row2 m) (row3 m)).
(* adjugate: its columns are the cross products of the rows *)
Definition adj (m : mat) :=
  tr (M3 (cross (row2 m) (row3 m)) (cross (row3 m) (row1 m)) (cross (row1 m) (row2 m))).
Definition minv_total (m : mat) := mscale (/ det m) (adj m).
(* numpy.linalg.inv: raises LinAlgError for a singular matrix. *)
Definition minv (m : mat) : res mat :=
  if Reqb (det m) 0 then Err LinAlgError else Ok (minv_total m).

(* Integer vectors. *)
Record zvec := Zv { zx : Z; zy : Z; zz : Z }.
Definition ofZv (v : zvec) : vec := V3 (IZR (zx v)) (IZR (zy v)) (IZR (zz v)).

(* Integer matrices (transformation matrices written as literals). *)
Record zmat := Zm { z11:Z; z12:Z; z13:Z; z21:Z; z22:Z; z23:Z; z31:Z; z32:Z; z33:Z }.
Definition zdet (m : zmat) : Z :=
  (z11 m * (z22 m * z33 m - z23 m * z32 m)
   - z12 m * (z21 m * z33 m - z23 m * z31 m)
   + z13 m * (z21 m * z32 m - z22 m * z31 m))%Z.
Definition zmul (m n : zmat) : zmat := (Zm
  (z11 m * z11 n + z12 m * z21 n + z13 m * z31 n)
  (z11 m * z12 n + z12 m * z22 n + z13 m * z32 n)
  (z11 m * z13 n + z12 m * z23 n + z13 m * z33 n)
  (z21 m * z11 n + z22 m * z21 n + z23 m * z31 n)
  (z21 m * z12 n + z22 m * z22 n + z23 m * z32 n)
  (z21 m * z13 n + z22 m * z23 n + z23 m * z33 n)
  (z31 m * z11 n + z32 m * z21 n + z33 m * z31 n)
  (z31 m * z12 n + z32 m * z22 n + z33 m * z32 n)
  (z31 m * z13 n + z32 m * z23 n + z33 m * z33 n))%Z.
Definition zid := Zm 1 0 0 0 1 0 0 0 1.
Definition ztr (m : zmat) :=
  Zm (z11 m) (z21 m) (z31 m) (z12 m) (z22 m) (z32 m) (z13 m) (z23 m) (z33 m).
Definition ofZ (m : zmat) : mat :=
  mk (IZR (z11 m)) (IZR (z12 m)) (IZR (z13 m))
     (IZR (z21 m)) (IZR (z22 m)) (IZR (z23 m))
     (IZR (z31 m)) (IZR (z32 m)) (IZR (z33 m)).

(* ------------------------------------------------------------------ *)
(* Automation                                                          *)
Ltac vdestruct :=
  repeat match goal with
  | v : vec |- _ => destruct v
  | m : mat |- _ => destruct m
  | m : zmat |- _ => destruct m
  end.
Ltac vunfold :=
  cbv [vadd vsub vneg vscale vzero dot cross mk mid col1 col2 col3 tr vmat matv mmul
       mscale mneg det adj minv_total ofZ zdet zmul zid ztr
       vx vy vz row1 row2 row3 z11 z12 z13 z21 z22 z23 z31 z32 z33] in *.
Ltac vcomp :=
  repeat match goal with
  | |- V3 _ _ _ = V3 _ _ _ => f_equal
  | |- M3 _ _ _ = M3 _ _ _ => f_equal
  end.
Ltac vring := intros; vdestruct; vunfold; vcomp; ring.
Ltac vfield := intros; vdestruct; vunfold; vcomp; field.

Lemma vec_eq u v : vx u = vx v -> vy u = vy v -> vz u = vz v -> u = v.
Proof. destruct u, v; simpl; intros; subst; reflexivity. Qed.

Lemma dot_comm u v : dot u v = dot v u.
Proof. vring. Qed.
Lemma dot_self_nonneg u : 0 <= dot u u.
Proof. destruct u; unfold dot; simpl; nra. Qed.
Lemma dot_scale_l k u v : dot (vscale k u) v = k * dot u v.
Proof. vring. Qed.
Lemma dot_scale_r k u v : dot u (vscale k v) = k * dot u v.
Proof. vring. Qed.
Lemma dot_add_l u v w : dot (vadd u v) w = dot u w + dot v w.
Proof. vring. Qed.
Lemma dot_neg_l u v : dot (vneg u) v = - dot u v.
Proof. vring. Qed.
Lemma dot_neg_r u v : dot u (vneg v) = - dot u v.
Proof. vring. Qed.
Lemma dot_self_zero u : dot u u = 0 -> u = vzero.
Proof.
  destruct u as [a b c]; unfold dot, vzero; simpl; intros H.
  assert (a = 0) by nra. assert (b = 0) by nra. assert (c = 0) by nra. subst; reflexivity.
Qed.
Lemma norm_nonneg u : 0 <= norm u.
Proof. apply sqrt_pos. Qed.
Lemma norm_sqr u : norm u * norm u = dot u u.
Proof. apply sqrt_sqrt, dot_self_nonneg. Qed.
Lemma norm_pos u : u <> vzero -> 0 < norm u.
Proof.
  intros H. apply sqrt_lt_R0. pose proof (dot_self_nonneg u).
  destruct (Req_dec (dot u u) 0) as [E|E]; [exfalso; auto using dot_self_zero | lra].
Qed.
Lemma norm_zero_iff u : norm u = 0 <-> u = vzero.
Proof.
  split; intros H.
  - apply dot_self_zero. rewrite <- norm_sqr, H; ring.
  - subst. unfold norm, dot; simpl. replace (0*0+0*0+0*0) with 0 by ring. apply sqrt_0.
Qed.
Lemma norm_scale k u : norm (vscale k u) = Rabs k * norm u.
Proof.
  unfold norm. rewrite dot_scale_l, dot_scale_r, <- Rmult_assoc.
  rewrite sqrt_mult_alt by nra. rewrite (sqrt_Rsqr_abs k) || fold (Rsqr k).
  rewrite ?sqrt_Rsqr_abs. reflexivity.
Qed.
Lemma norm_neg u : norm (vneg u) = norm u.
Proof. unfold norm. rewrite dot_neg_l, dot_neg_r. f_equal; ring. Qed.
Lemma cauchy_schwarz_sqr u v : dot u v * dot u v <= dot u u * dot v v.
Proof.
  assert (H : dot u u * dot v v - dot u v * dot u v = dot (cross u v) (cross u v)) by vring.
  pose proof (dot_self_nonneg (cross u v)); lra.
Qed.
Lemma cauchy_schwarz u v : Rabs (dot u v) <= norm u * norm v.
Proof.
  apply Rsqr_incr_0_var.
  - rewrite <- Rsqr_abs. unfold Rsqr.
    replace (norm u * norm v * (norm u * norm v)) with ((norm u*norm u)*(norm v * norm v)) by ring.
    rewrite !norm_sqr. apply cauchy_schwarz_sqr.
  - apply Rmult_le_pos; apply norm_nonneg.
Qed.

Lemma mmul_assoc a b c : mmul (mmul a b) c = mmul a (mmul b c).
Proof. vring. Qed.
Lemma mmul_id_l a : mmul mid a = a.
Proof. vring. Qed.
Lemma mmul_id_r a : mmul a mid = a.
Proof. vring. Qed.
Lemma tr_mmul a b : tr (mmul a b) = mmul (tr b) (tr a).
Proof. vring. Qed.
Lemma tr_tr a : tr (tr a) = a.
Proof. vring. Qed.
Lemma det_mmul a b : det (mmul a b) = det a * det b.
Proof. vring. Qed.
Lemma det_tr a : det (tr a) = det a.
Proof. vring. Qed.
Lemma det_id : det mid = 1.
Proof. vring. Qed.
Lemma vmat_mmul v a b : vmat (vmat v a) b = vmat v (mmul a b).
Proof. vring. Qed.
Lemma vmat_id v : vmat v mid = v.
Proof. vring. Qed.
Lemma vmat_add u v m : vmat (vadd u v) m = vadd (vmat u m) (vmat v m).
Proof. vring. Qed.
Lemma vmat_sub u v m : vmat (vsub u v) m = vsub (vmat u m) (vmat v m).
Proof. vring. Qed.
Lemma vmat_neg u m : vmat (vneg u) m = vneg (vmat u m).
Proof. vring. Qed.
Lemma vmat_scale k u m : vmat (vscale k u) m = vscale k (vmat u m).
Proof. vring. Qed.
Lemma mmul_adj_r m : mmul m (adj m) = mscale (det m) mid.
Proof. vring. Qed.
Lemma mmul_adj_l m : mmul (adj m) m = mscale (det m) mid.
Proof. vring. Qed.
Lemma minv_r m : det m <> 0 -> mmul m (minv_total m) = mid.
Proof.
  intros H. assert (E : mmul m (minv_total m) = mscale (/ det m) (mmul m (adj m))).
  { unfold minv_total. generalize (/ det m). generalize (adj m). vring. }
  rewrite E, mmul_adj_r. clear E. generalize dependent (det m); intros d Hd.
  unfold mscale, mid, mk, vscale; simpl. vcomp; field; assumption.
Qed.
Lemma minv_l m : det m <> 0 -> mmul (minv_total m) m = mid.
Proof.
  intros H. assert (E : mmul (minv_total m) m = mscale (/ det m) (mmul (adj m) m)).
  { unfold minv_total. generalize (/ det m). generalize (adj m). vring. }
  rewrite E, mmul_adj_l. clear E. generalize dependent (det m); intros d Hd.
  unfold mscale, mid, mk, vscale; simpl. vcomp; field; assumption.
Qed.
Lemma mmul_cancel_l m a b : det m <> 0 -> mmul m a = mmul m b -> a = b.
Proof.
  intros H E. rewrite <- (mmul_id_l a), <- (mmul_id_l b), <- (minv_l m H), !mmul_assoc, E.
  reflexivity.
Qed.
Lemma mmul_cancel_r m a b : det m <> 0 -> mmul a m = mmul b m -> a = b.
Proof.
  intros H E. rewrite <- (mmul_id_r a), <- (mmul_id_r b), <- (minv_r m H), <- !mmul_assoc, E.
  reflexivity.
Qed.
Lemma minv_unique m n : det m <> 0 -> mmul m n = mid -> n = minv_total m.
Proof. intros H E. apply (mmul_cancel_l m); auto. rewrite E, minv_r; auto. Qed.
Lemma det_minv m : det m <> 0 -> det (minv_total m) = / det m.
Proof.
  intros H. apply (Rmult_eq_reg_l (det m)); auto.
  rewrite <- det_mmul, minv_r, det_id by auto. field; auto.
Qed.
Lemma minv_invol m : det m <> 0 -> minv_total (minv_total m) = m.
Proof.
  intros H. symmetry. apply minv_unique.
  - rewrite det_minv by auto. apply Rinv_neq_0_compat; auto.
  - apply minv_l; auto.
Qed.
Lemma tr_minv m : det m <> 0 -> tr (minv_total m) = minv_total (tr m).
Proof.
  intros H. apply minv_unique; [rewrite det_tr; auto|].
  rewrite <- tr_mmul, minv_l by auto. vring.
Qed.
Lemma vmat_cancel m u v : det m <> 0 -> vmat u m = vmat v m -> u = v.
Proof.
  intros H E. rewrite <- (vmat_id u), <- (vmat_id v), <- (minv_r m H), <- !vmat_mmul, E.
  reflexivity.
Qed.
Lemma minv_ok m n : minv m = Ok n <-> det m <> 0 /\ n = minv_total m.
Proof.
  unfold minv. destruct (Reqb_spec (det m) 0) as [E|E]; split.
  - discriminate.
  - intros [H _]; contradiction.
  - intros H; injection H; auto.
  - intros [_ ->]; reflexivity.
Qed.
Lemma minv_err m e : minv m = Err e <-> det m = 0 /\ e = LinAlgError.
Proof.
  unfold minv. destruct (Reqb_spec (det m) 0) as [E|E]; split.
  - intros H; injection H; auto.
  - intros [_ ->]; reflexivity.
  - discriminate.
  - intros [H _]; contradiction.
Qed.

(* Integer matrices act compatibly. *)
Lemma ofZ_mul a b : ofZ (zmul a b) = mmul (ofZ a) (ofZ b).
Proof. intros; vdestruct; vunfold; vcomp; rewrite !plus_IZR, !mult_IZR; ring. Qed.
Lemma ofZ_det a : det (ofZ a) = IZR (zdet a).
Proof.
  intros; vdestruct; vunfold.
  repeat rewrite ?plus_IZR, ?minus_IZR, ?mult_IZR. ring.
Qed.
Lemma ofZ_tr a : ofZ (ztr a) = tr (ofZ a).
Proof. vring. Qed.
Lemma zdet_mul a b : zdet (zmul a b) = (zdet a * zdet b)%Z.
Proof. intros; vdestruct; vunfold; ring. Qed.
Lemma zdet_tr a : zdet (ztr a) = zdet a.
Proof. intros; vdestruct; vunfold; ring. Qed.

(* Generic tactic splitting on boolean real comparisons. *)
Ltac bcase :=
  repeat match goal with
  | |- context [Rltb ?a ?b] => destruct (Rltb_spec a b)
  | |- context [Rleb ?a ?b] => destruct (Rleb_spec a b)
  | |- context [Reqb ?a ?b] => destruct (Reqb_spec a b)
  end.

(* String is exported last; give the list functions their names back. *)
Notation length := List.length.
Notation concat := List.concat.
