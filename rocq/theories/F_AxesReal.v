(* F_AxesReal.v : the two-fold rotations of a reduced cell, and what they say about its metric *)
From Verif Require Import Base M_Numerical M_Geometry M_Cell M_Niggli S_Niggli F_Niggli M_Voronoi F_Voronoi F_Geometry F_Minima F_NiggliCheck F_NiggliUnique
  M_Lepage F_Lepage F_LepageEx F_Bravais F_Angles F_Classify F_Axes F_AxesData F_AxesTable.
Open Scope R_scope.

Definition Sym (d : mat) (w : zmat) : Prop := mmul (mmul (ofZ w) (metric d)) (tr (ofZ w)) = metric d.
Lemma Sym_mul d a b : Sym d a -> Sym d b -> Sym d (zmul a b).
Proof.
  unfold Sym. intros A B. rewrite ofZ_mul, tr_mmul.
  transitivity (mmul (mmul (ofZ a) (mmul (mmul (ofZ b) (metric d)) (tr (ofZ b)))) (tr (ofZ a))); [rewrite !mmul_assoc; reflexivity|].
  rewrite B. exact A.
Qed.
Lemma mat_dec (a b : mat) : a = b \/ a <> b.
Proof.
  destruct a as [[a1 a2 a3] [b1 b2 b3] [c1 c2 c3]], b as [[a1' a2' a3'] [b1' b2' b3'] [c1' c2' c3']].
  destruct (Req_dec a1 a1'); [subst|right; congruence]. destruct (Req_dec a2 a2'); [subst|right; congruence]. destruct (Req_dec a3 a3'); [subst|right; congruence].
  destruct (Req_dec b1 b1'); [subst|right; congruence]. destruct (Req_dec b2 b2'); [subst|right; congruence]. destruct (Req_dec b3 b3'); [subst|right; congruence].
  destruct (Req_dec c1 c1'); [subst|right; congruence]. destruct (Req_dec c2 c2'); [subst|right; congruence]. destruct (Req_dec c3 c3'); [subst|right; congruence].
  left. reflexivity.
Qed.
Lemma Sym_dec d w : Sym d w \/ ~ Sym d w.
Proof. apply mat_dec. Qed.
Lemma Sym_det d w : det d <> 0 -> Sym d w -> (zdet w <> 0)%Z.
Proof.
  intros D S Z. apply (f_equal det) in S. unfold metric in S. rewrite !det_mmul, ofZ_det, Z in S.
  rewrite !Rmult_0_l, det_tr in S. symmetry in S. apply Rmult_integral in S. tauto.
Qed.
Lemma Sym_rows d w : Sym d w ->
  qr (cell_params d) (r1 w) = nA (cell_params d) /\ qr (cell_params d) (r2 w) = nB (cell_params d) /\ qr (cell_params d) (r3 w) = nC (cell_params d).
Proof.
  destruct d as [[a1 a2 a3] [b1 b2 b3] [c1 c2 c3]], w as [w11 w12 w13 w21 w22 w23 w31 w32 w33].
  unfold Sym, qr, qf, cell_params, r1, r2, r3, metric. cbn [z11 z12 z13 z21 z22 z23 z31 z32 z33 nA nB nC nxi neta nzeta]. vunfold.
  intros S. injection S. intros. repeat split; nra.
Qed.
Lemma Sym_small d w : det d <> 0 -> niggli_reduced d -> Sym d w -> smallm w = true.
Proof.
  intros D N S. destruct (Sym_rows d w S) as (Q1 & Q2 & Q3).
  destruct (rows_small (cell_params d) w N (cell_A_pos d D) (Sym_det d w D S)) as (B1 & B2 & B3); try lra.
  destruct w as [w11 w12 w13 w21 w22 w23 w31 w32 w33]. unfold r1, r2, r3, in_box, small in *. cbn [z11 z12 z13 z21 z22 z23 z31 z32 z33] in *.
  unfold smallm. apply all_true. cbn [z11 z12 z13 z21 z22 z23 z31 z32 z33]. intros x I. apply unit3_true. cbn in I. intuition (subst; lia).
Qed.
(* the exact set of two-fold rotations of a reduced cell is in the table *)
Lemma reduced_entry d : det d <> 0 -> niggli_reduced d ->
  exists e, In e entries /\ (forall w, In w (e_set e) -> Sym d w) /\ (forall w, is_two w = true -> Sym d w -> In w (e_set e)).
Proof.
  intros D N. destruct (table_covers (Sym d) (Sym_mul d) (fun w => Sym_small d w D N) (Sym_dec d)) as (e & I & E & S).
  exists e. split; [auto|split; [auto|]]. intros w T H. apply E; auto. apply in_twos; auto. apply (Sym_small d); auto.
Qed.

(* ---------------- the rotation about U that keeps the planes h ---------------- *)
Definition wmat (p : zvec * zvec) : zmat :=
  let s := zsgn p in let U := fst p in let h := snd p in
  (Zm (s * zx h * zx U - 1) (s * zx h * zy U) (s * zx h * zz U)
      (s * zy h * zx U) (s * zy h * zy U - 1) (s * zy h * zz U)
      (s * zz h * zx U) (s * zz h * zy U) (s * zz h * zz U - 1))%Z.
Lemma wmat_two p : zeven p = true -> is_two (wmat p) = true.
Proof.
  destruct p as [U h]. intros E. destruct (even_sgn U h E) as (S1 & S2). unfold is_two, wmat, ztrace. cbn [fst snd].
  set (s := zsgn (U, h)) in *. clearbody s. destruct U as [u1 u2 u3], h as [h1 h2 h3]. unfold zdot in S1. cbn [Base.zx Base.zy Base.zz] in *.
  cbn [z11 z12 z13 z21 z22 z23 z31 z32 z33]. assert (K : (s * (u1 * h1 + u2 * h2 + u3 * h3) = 2)%Z) by (rewrite S1; lia).
  apply andb_true_iff. split; [apply Z.eqb_eq; nia|]. apply zeqb_true. unfold zmul, zone. cbn [z11 z12 z13 z21 z22 z23 z31 z32 z33].
  assert (T : forall a b, (s * a * b * (s * (u1 * h1 + u2 * h2 + u3 * h3)) = 2 * (s * a * b))%Z) by (intros; rewrite K; lia).
  f_equal.
  - pose proof (T h1 u1). nia.
  - pose proof (T h1 u2). nia.
  - pose proof (T h1 u3). nia.
  - pose proof (T h2 u1). nia.
  - pose proof (T h2 u2). nia.
  - pose proof (T h2 u3). nia.
  - pose proof (T h3 u1). nia.
  - pose proof (T h3 u2). nia.
  - pose proof (T h3 u3). nia.
Qed.
Lemma wmat_vmat U h v : vmat v (ofZ (wmat (U, h))) = vsub (vscale (IZR (zsgn (U, h)) * dot v (ofZv h)) (ofZv U)) v.
Proof.
  unfold wmat. cbn [fst snd]. destruct U as [u1 u2 u3], h as [h1 h2 h3], v as [v1 v2 v3]. set (s := zsgn _). clearbody s.
  unfold ofZv, ofZ. cbn [z11 z12 z13 z21 z22 z23 z31 z32 z33 Base.zx Base.zy Base.zz]. rewrite !minus_IZR, !mult_IZR. vunfold. vcomp; ring.
Qed.
Lemma wmat_matv U h v : vmat v (tr (ofZ (wmat (U, h)))) = vsub (vscale (IZR (zsgn (U, h)) * dot v (ofZv U)) (ofZv h)) v.
Proof.
  unfold wmat. cbn [fst snd]. destruct U as [u1 u2 u3], h as [h1 h2 h3], v as [v1 v2 v3]. set (s := zsgn _). clearbody s.
  unfold ofZv, ofZ. cbn [z11 z12 z13 z21 z22 z23 z31 z32 z33 Base.zx Base.zy Base.zz]. rewrite !minus_IZR, !mult_IZR. vunfold. vcomp; ring.
Qed.
Lemma mat_ext a b : (forall v, vmat v a = vmat v b) -> a = b.
Proof.
  intros H. pose proof (H (V3 1 0 0)) as H1. pose proof (H (V3 0 1 0)) as H2. pose proof (H (V3 0 0 1)) as H3. clear H.
  destruct a as [[a1 a2 a3] [b1 b2 b3] [c1 c2 c3]], b as [[a1' a2' a3'] [b1' b2' b3'] [c1' c2' c3']]. vunfold.
  injection H1. injection H2. injection H3. intros. vcomp; lra.
Qed.
Lemma metric_sym d u v : dot (vmat u (metric d)) v = dot (vmat v (metric d)) u.
Proof. rewrite <- !dot_metric. apply dot_comm. Qed.
Lemma dot_vmat_tr u v m : dot (vmat u m) v = dot u (vmat v (tr m)).
Proof. destruct u, v, m as [[] [] []]. vunfold. ring. Qed.
Lemma metric_tr d : tr (metric d) = metric d.
Proof. unfold metric. destruct d as [[] [] []]. vunfold. vcomp; ring. Qed.
Lemma twofold_sym d U h : zeven (U, h) = true -> (twofold (metric d) U h <-> Sym d (wmat (U, h))).
Proof.
  intros E. destruct (even_sgn U h E) as (S1 & S2). apply (f_equal IZR) in S1, S2. rewrite mult_IZR in S1, S2. rewrite <- ofZv_dot in S1.
  set (s := IZR (zsgn (U, h))) in *. split.
  - intros (k & K). unfold Sym. apply mat_ext. intros v. rewrite <- !vmat_mmul, wmat_vmat, wmat_matv. fold s.
    set (G := metric d) in *. set (g := vmat v G).
    assert (X : vmat (vsub (vscale (s * dot v (ofZv h)) (ofZv U)) v) G = vsub (vscale (s * dot v (ofZv h)) (vmat (ofZv U) G)) g).
    { unfold g. generalize (ofZv U) (s * dot v (ofZv h)) v G. clear. intros [] x [] [[] [] []]. vunfold. vcomp; ring. }
    rewrite X, K. clear X.
    assert (Y : dot g (ofZv U) = k * dot v (ofZv h)).
    { unfold g. subst G. rewrite metric_sym, K. generalize (ofZv h) v. clear. intros [] []. vunfold. ring. }
    assert (Z : dot (ofZv h) (ofZv U) = 2 * s) by (rewrite <- S1; apply dot_comm).
    assert (Q : dot (vsub (vscale (s * dot v (ofZv h)) (vscale k (ofZv h))) g) (ofZv U) = k * dot v (ofZv h)).
    { transitivity (s * dot v (ofZv h) * k * dot (ofZv h) (ofZv U) - dot g (ofZv U)).
      - generalize (ofZv h) (ofZv U) g (s * dot v (ofZv h)) k. clear. intros [] [] []. intros. vunfold. ring.
      - rewrite Z, Y. transitivity (2 * (s * s) * k * dot v (ofZv h) - k * dot v (ofZv h)); [ring|rewrite S2; ring]. }
    rewrite Q. generalize (ofZv h) (dot v (ofZv h)). clear. intros [] x. destruct g. vunfold. vcomp; ring.
  - intros S. exists (s * dot (vmat (ofZv U) (metric d)) (ofZv U) / 2). unfold Sym in S.
    assert (F : vmat (ofZv U) (ofZ (wmat (U, h))) = ofZv U).
    { rewrite wmat_vmat. fold s. rewrite S1. replace (s * (2 * s)) with 2 by lra.
      generalize (ofZv U). intros []. vunfold. vcomp; ring. }
    apply (f_equal (vmat (ofZv U))) in S. rewrite <- !vmat_mmul, F, wmat_matv in S. fold s in S.
    set (g := vmat (ofZv U) (metric d)) in *. clearbody g s. revert S. generalize (ofZv U) (ofZv h). clear. intros [] [] S. destruct g. vunfold.
    injection S. intros. vcomp; lra.
Qed.

(* ---------------- the axes examined by lepage ---------------- *)
Definition par (A : list zmat) (p : zvec * zvec) : bool := zmem (wmat p) A.
Definition good_def : list (zvec * zvec) := filter (fun p => if zeven p then zmem (wmat p) twos else false) pairs22.
Definition good : list (zvec * zvec) := Eval vm_compute in good_def.
Lemma good_eq : good = good_def.
Proof. vm_compute. reflexivity. Qed.
Lemma exact_us_good A : (forall w, In w A -> In w twos) -> exact_us (par A) = map fst (filter (par A) good).
Proof.
  intros S. rewrite good_eq. unfold exact_us, good_def. generalize pairs22. intros l. apply (f_equal (map fst)). induction l as [|p l IH]; [reflexivity|]. cbn [filter].
  destruct (zeven p); cbn [andb]; [|exact IH]. unfold par at 1. destruct (zmem (wmat p) A) eqn:M.
  - rewrite (proj2 (zmem_true _ _) (S _ (proj1 (zmem_true _ _) M))). cbn [filter]. unfold par at 2. rewrite M. f_equal. exact IH.
  - destruct (zmem (wmat p) twos); [|exact IH]. cbn [filter]. unfold par at 2. rewrite M. exact IH.
Qed.
