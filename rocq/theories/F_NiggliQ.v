(* F_NiggliQ.v : exactness, reducedness and termination for quantised metric tensors *)
From Verif Require Import Base M_Strings M_Numerical F_Numerical M_Geometry F_Geometry M_Niggli S_Niggli F_Niggli.
Open Scope R_scope.

(* ---------- multiples of q ---------- *)
Lemma mult_add q x y : multiple q x -> multiple q y -> multiple q (x + y).
Proof. intros [a ->] [b ->]. exists (a + b)%Z. rewrite plus_IZR; ring. Qed.
Lemma mult_opp q x : multiple q x -> multiple q (- x).
Proof. intros [a ->]. exists (- a)%Z. rewrite opp_IZR; ring. Qed.
Lemma mult_sub q x y : multiple q x -> multiple q y -> multiple q (x - y).
Proof. intros H K. apply mult_add; auto using mult_opp. Qed.
Lemma mult_scale q x z : multiple q x -> multiple q (x * IZR z).
Proof. intros [a ->]. exists (a * z)%Z. rewrite mult_IZR; ring. Qed.
Lemma mult_scale_l q x z : multiple q x -> multiple q (IZR z * x).
Proof. intros H. rewrite Rmult_comm. apply mult_scale; auto. Qed.
Lemma mult_abs q x : multiple q x -> multiple q (Rabs x).
Proof. intros H. unfold Rabs. destruct (Rcase_abs x); auto using mult_opp. Qed.
Lemma mult_0 q : multiple q 0.
Proof. exists 0%Z. ring. Qed.
Lemma mult_prod3 q x y z : multiple q x -> multiple q y -> multiple q z -> multiple (q*q*q) (x*y*z).
Proof. intros [a ->] [b ->] [c ->]. exists (a*b*c)%Z. rewrite !mult_IZR; ring. Qed.
Lemma mult_gap q x y : 0 < q -> multiple q x -> multiple q y -> x < y -> x + q <= y.
Proof.
  intros Hq [a ->] [b ->] H. apply Rmult_lt_reg_l in H; auto. apply lt_IZR in H.
  assert (K : (a + 1 <= b)%Z) by lia. apply IZR_le in K. rewrite plus_IZR in K. nra.
Qed.
Lemma mult_gt q e x y : 0 < q -> 0 <= e < q -> multiple q x -> multiple q y -> (y + e < x <-> y < x).
Proof. intros Hq He Hx Hy. split; [lra|]. intros H. pose proof (mult_gap q y x Hq Hy Hx H). lra. Qed.
Lemma mult_near q e x y : 0 < q -> 0 <= e < q -> multiple q x -> multiple q y -> (near e x y <-> x = y).
Proof.
  intros Hq He Hx Hy. rewrite near_iff. split; [|intros ->; lra].
  intros H. destruct (Rtotal_order x y) as [L|[L|L]]; auto; exfalso.
  - pose proof (mult_gap q x y Hq Hx Hy L). lra.
  - pose proof (mult_gap q y x Hq Hy Hx L). lra.
Qed.

Ltac mult := repeat first [assumption | apply mult_add | apply mult_sub | apply mult_opp
  | apply mult_abs | apply mult_scale | apply mult_scale_l | apply mult_0 ].

(* ---------- exact conditions ---------- *)
Definition econd_1 p := nB p < nA p \/ (nA p = nB p /\ Rabs (neta p) < Rabs (nxi p)).
Definition econd_2 p := nC p < nB p \/ (nB p = nC p /\ Rabs (nzeta p) < Rabs (neta p)).
Definition econd_5 p := nB p < Rabs (nxi p) \/ (nxi p = nB p /\ 2 * neta p < nzeta p)
  \/ (nxi p = - nB p /\ nzeta p < 0).
Definition econd_6 p := nA p < Rabs (neta p) \/ (neta p = nA p /\ 2 * nxi p < nzeta p)
  \/ (neta p = - nA p /\ nzeta p < 0).
Definition econd_7 p := nA p < Rabs (nzeta p) \/ (nzeta p = nA p /\ 2 * nxi p < neta p)
  \/ (nzeta p = - nA p /\ neta p < 0).
Definition econd_8 p :=
  let s := nxi p + neta p + nzeta p + nA p + nB p in
  s < 0 \/ (s = 0 /\ 0 < 2 * (nA p + neta p) + nzeta p).

Section Quant.
  Variables (q e : R).
  Hypothesis Hq : 0 < q.
  Hypothesis He : 0 <= e < q.
  Hypothesis He3 : e < q * q * q.
  Hypothesis Hq8 : default_atol < q.

  Ltac quant := intros (HA & HB & HC & Hx & Hy & Hz);
    unfold cond_1, cond_2, cond_5, cond_6, cond_7, cond_8,
      econd_1, econd_2, econd_5, econd_6, econd_7, econd_8; cbv zeta;
    repeat first [rewrite (mult_near q e) by (auto; mult)
                 | rewrite (mult_gt q e) by (auto; mult)];
    reflexivity.

  Lemma q_cond_1 p : quantised q p -> (cond_1 e p <-> econd_1 p).
  Proof. quant. Qed.
  Lemma q_cond_2 p : quantised q p -> (cond_2 e p <-> econd_2 p).
  Proof. quant. Qed.
  Lemma q_cond_5 p : quantised q p -> (cond_5 e p <-> econd_5 p).
  Proof. quant. Qed.
  Lemma q_cond_6 p : quantised q p -> (cond_6 e p <-> econd_6 p).
  Proof. quant. Qed.
  Lemma q_cond_7 p : quantised q p -> (cond_7 e p <-> econd_7 p).
  Proof. quant. Qed.
  Lemma q_cond_8 p : quantised q p -> (cond_8 e p <-> econd_8 p).
  Proof. quant. Qed.

  Ltac updq := intros (HA & HB & HC & Hx & Hy & Hz); unfold quantised, upd_1, upd_2, upd_5, upd_6, upd_7, upd_8;
    cbn; repeat split; auto; mult.
  Lemma upd_1_q p : quantised q p -> quantised q (upd_1 p). Proof. updq. Qed.
  Lemma upd_2_q p : quantised q p -> quantised q (upd_2 p). Proof. updq. Qed.
  Lemma upd_5_q p : quantised q p -> quantised q (upd_5 p). Proof. updq. Qed.
  Lemma upd_6_q p : quantised q p -> quantised q (upd_6 p). Proof. updq. Qed.
  Lemma upd_7_q p : quantised q p -> quantised q (upd_7 p). Proof. updq. Qed.
  Lemma upd_8_q p : quantised q p -> quantised q (upd_8 p). Proof. updq. Qed.

  Definition diag_upd (i j k : Z) p :=
    NP (nA p) (nB p) (nC p) (IZR (j * k) * nxi p) (IZR (i * k) * neta p) (IZR (i * j) * nzeta p).

  Lemma cwt_gt0_q x : multiple q x -> cwt x CGt 0 e = Rltb 0 x.
  Proof.
    intros H. apply eq_true_iff_eq. rewrite cwt_gt_true, Rltb_true.
    apply (mult_gt q); auto. apply mult_0.
  Qed.
  Lemma default_eps_0 : default_atol + default_rtol * Rabs 0 = default_atol.
  Proof. rewrite Rabs_R0. ring. Qed.
  Lemma cwt_default_gt0_q x : multiple q x -> cwt_default x CGt 0 = Rltb 0 x.
  Proof.
    intros H. unfold cwt_default. rewrite default_eps_0. apply eq_true_iff_eq.
    rewrite cwt_gt_true, Rltb_true.
    apply (mult_gt q); auto. { unfold default_atol in *; lra. } apply mult_0.
  Qed.
  Lemma cwt_default_lt0_q x : multiple q x -> cwt_default x CLt 0 = Rltb x 0.
  Proof.
    intros H. unfold cwt_default. rewrite default_eps_0. apply eq_true_iff_eq.
    rewrite cwt_lt_true, Rltb_true.
    apply (mult_gt q); auto. { unfold default_atol in *; lra. } apply mult_0.
  Qed.

  Lemma Rltb_t x y : x < y -> Rltb x y = true.
  Proof. apply Rltb_true. Qed.
  Lemma Rltb_f x y : y <= x -> Rltb x y = false.
  Proof. apply Rltb_false. Qed.

  Lemma prod3_pos x y z : 0 < x -> 0 < y -> 0 < z -> 0 < x * y * z.
  Proof. intros. repeat apply Rmult_lt_0_compat; auto. Qed.
  Lemma prod3_nn x y z : x < 0 -> y < 0 -> 0 < z -> 0 < x * y * z.
  Proof. intros. replace (x*y*z) with ((-x)*(-y)*z) by ring. apply prod3_pos; lra. Qed.
  Lemma prod3_npn x y z : x < 0 -> 0 < y -> z < 0 -> 0 < x * y * z.
  Proof. intros. replace (x*y*z) with ((-x)*y*(-z)) by ring. apply prod3_pos; lra. Qed.
  Lemma prod3_pnn x y z : 0 < x -> y < 0 -> z < 0 -> 0 < x * y * z.
  Proof. intros. replace (x*y*z) with (x*(-y)*(-z)) by ring. apply prod3_pos; lra. Qed.
  Lemma prod3_neg x y z : 0 < (-x) * y * z -> x * y * z < 0.
  Proof. intros. replace (-x*y*z) with (-(x*y*z)) in H by ring. lra. Qed.

  Ltac pick := repeat first
     [ rewrite (Rltb_t 0 _) by lra | rewrite (Rltb_f 0 _) by lra
     | rewrite (Rltb_t _ 0) by lra | rewrite (Rltb_f _ 0) by lra ].

  Ltac absval := repeat first [rewrite Rabs_pos_eq by lra | rewrite Rabs_left1 by lra].
  Ltac finish := match goal with |- context [zdiag ?i ?j ?k] =>
      exists i, j, k; (split; [auto|split; [auto|split; [auto|]]]);
      cbn [Z.mul Pos.mul nA nB nC nxi neta nzeta]; apply f_equal2; [|reflexivity];
      absval; f_equal; lra end.

  Lemma after_34_q p t : quantised q p -> exists i j k,
    (i = 1 \/ i = -1)%Z /\ (j = 1 \/ j = -1)%Z /\ (k = 1 \/ k = -1)%Z /\
    after_34 p t e = (diag_upd i j k p, zmul t (zdiag i j k)).
  Proof.
    intros (HA & HB & HC & Hx & Hy & Hz). unfold after_34, step_3.
    pose proof (mult_prod3 q _ _ _ Hx Hy Hz) as HP.
    destruct (cwt (nxi p * neta p * nzeta p) CGt 0 e) eqn:C3.
    - apply cwt_gt_true in C3. unfold step_4; cbn [nxi neta nzeta].
      assert (P : cwt (Rabs (nxi p) * Rabs (neta p) * Rabs (nzeta p)) CLe 0 e = false).
      { apply cwt_le_false. rewrite <- !Rabs_mult. rewrite Rabs_pos_eq by lra. lra. }
      rewrite P. rewrite !cwt_gt0_q by auto. unfold diag_upd.
      destruct p as [A B C x y z]; cbn in *.
      destruct (Rtotal_order x 0) as [X|[X|X]]; [ | exfalso; subst x; lra| ];
      (destruct (Rtotal_order y 0) as [Y|[Y|Y]]; [ | exfalso; subst y; lra| ]);
      (destruct (Rtotal_order z 0) as [Z0|[Z0|Z0]]; [ | exfalso; subst z; lra| ]); pick;
      try (exfalso; first
        [ assert (x*y*z < 0) by (apply prod3_neg; apply prod3_pos; lra); lra
        | assert (x*y*z < 0) by (apply prod3_neg; apply prod3_nn; lra); lra
        | assert (x*y*z < 0) by (apply prod3_neg; apply prod3_npn; lra); lra
        | assert (x*y*z < 0) by (apply prod3_neg; apply prod3_pnn; lra); lra]);
      finish.
    - apply cwt_gt_false in C3. unfold step_4.
      assert (N : nxi p * neta p * nzeta p <= 0).
      { apply Rnot_lt_le. intros F.
        pose proof (mult_gap (q*q*q) 0 _ ltac:(repeat apply Rmult_lt_0_compat; auto) (mult_0 _) HP F). lra. }
      assert (P : cwt (nxi p * neta p * nzeta p) CLe 0 e = true) by (apply cwt_le_true; lra).
      rewrite P. rewrite !cwt_default_gt0_q, !cwt_default_lt0_q by auto. unfold diag_upd.
      destruct p as [A B C x y z]; cbn [nA nB nC nxi neta nzeta] in *.
      destruct (Rtotal_order x 0) as [X|[X|X]];
      destruct (Rtotal_order y 0) as [Y|[Y|Y]];
      destruct (Rtotal_order z 0) as [Z0|[Z0|Z0]]; pick; cbn [negb]; cbv iota;
      try (exfalso; first
        [ pose proof (prod3_pos x y z ltac:(lra) ltac:(lra) ltac:(lra)); lra
        | pose proof (prod3_nn x y z ltac:(lra) ltac:(lra) ltac:(lra)); lra
        | pose proof (prod3_npn x y z ltac:(lra) ltac:(lra) ltac:(lra)); lra
        | pose proof (prod3_pnn x y z ltac:(lra) ltac:(lra) ltac:(lra)); lra]);
      cbn [Z.mul Pos.mul Z.ltb Z.compare]; cbv iota; finish.
  Qed.
End Quant.

(* ---------- the tracked parameters describe the cell ---------- *)
Definition tcell (t : zmat) (cell : mat) := mmul (ofZ (ztr t)) cell.
Definition synced (cell : mat) (p : npar) (t : zmat) := p = cell_params (tcell t cell).

Lemma gram_params_spec cell : gram_params cell = cell_params cell.
Proof.
  destruct cell as [[? ? ?] [? ? ?] [? ? ?]].
  unfold gram_params, cell_params, mmul, tr, vmat, dot, col1, col2, col3; cbn.
  f_equal; ring.
Qed.
Lemma ztr_mul a b : ztr (zmul a b) = zmul (ztr b) (ztr a).
Proof. destruct a, b; vunfold; f_equal; ring. Qed.
Lemma tcell_mul t m cell : tcell (zmul t m) cell = tcell m (tcell t cell).
Proof. unfold tcell. rewrite ztr_mul, ofZ_mul, mmul_assoc. reflexivity. Qed.

Ltac cp := intros; unfold tcell; match goal with c : mat |- _ => destruct c as [[? ? ?] [? ? ?] [? ? ?]] end;
  unfold cell_params, upd_1, upd_2, upd_5, upd_6, upd_7, upd_8, diag_upd, mat_1, mat_2, mat_8, zdiag;
  cbn [nA nB nC nxi neta nzeta Z.mul Pos.mul Z.opp]; vunfold; f_equal; ring.

Lemma cp_1 c : cell_params (tcell mat_1 c) = upd_1 (cell_params c). Proof. cp. Qed.
Lemma cp_2 c : cell_params (tcell mat_2 c) = upd_2 (cell_params c). Proof. cp. Qed.
Lemma cp_8 c : cell_params (tcell mat_8 c) = upd_8 (cell_params c). Proof. cp. Qed.
Lemma cp_diag i j k c : (i = 1 \/ i = -1)%Z -> (j = 1 \/ j = -1)%Z -> (k = 1 \/ k = -1)%Z ->
  cell_params (tcell (zdiag i j k) c) = diag_upd i j k (cell_params c).
Proof. intros [-> | ->] [-> | ->] [-> | ->]; cp. Qed.

Lemma sgn_sq x : x <> 0 -> IZR (sgn x) * IZR (sgn x) = 1 /\ x * IZR (sgn x) = Rabs x.
Proof.
  intros H. unfold sgn. destruct (Rltb_spec 0 x).
  - rewrite Rabs_pos_eq by lra. lra.
  - rewrite (Rltb_t x 0) by lra. rewrite Rabs_left1 by lra. lra.
Qed.

Lemma cp_5 c : nxi (cell_params c) <> 0 ->
  cell_params (tcell (mat_5 (cell_params c)) c) = upd_5 (cell_params c).
Proof.
  intros H. unfold mat_5, upd_5. unfold sgn. destruct (Rltb 0 _) eqn:E1; [|destruct (Rltb _ 0) eqn:E2].
  - cp.
  - cp.
  - exfalso. apply Rltb_false in E1, E2. lra.
Qed.
Lemma cp_6 c : neta (cell_params c) <> 0 ->
  cell_params (tcell (mat_6 (cell_params c)) c) = upd_6 (cell_params c).
Proof.
  intros H. unfold mat_6, upd_6. unfold sgn. destruct (Rltb 0 _) eqn:E1; [|destruct (Rltb _ 0) eqn:E2].
  - cp.
  - cp.
  - exfalso. apply Rltb_false in E1, E2. lra.
Qed.
Lemma cp_7 c : nzeta (cell_params c) <> 0 ->
  cell_params (tcell (mat_7 (cell_params c)) c) = upd_7 (cell_params c).
Proof.
  intros H. unfold mat_7, upd_7. unfold sgn. destruct (Rltb 0 _) eqn:E1; [|destruct (Rltb _ 0) eqn:E2].
  - cp.
  - cp.
  - exfalso. apply Rltb_false in E1, E2. lra.
Qed.

(* positive lengths and Cauchy-Schwarz-like bounds *)
Lemma cp_pos c : det c <> 0 -> let p := cell_params c in
  0 < nA p /\ 0 < nB p /\ 0 < nC p /\
  Rabs (nxi p) <= nB p + nC p /\ Rabs (neta p) <= nA p + nC p /\ Rabs (nzeta p) <= nA p + nB p.
Proof.
  intros D. cbv zeta. unfold cell_params; cbn.
  assert (P : forall v, v <> vzero -> 0 < dot v v).
  { intros v H. pose proof (dot_self_nonneg v). destruct (Req_dec (dot v v) 0); [|lra].
    exfalso; auto using dot_self_zero. }
  assert (B : forall u v, Rabs (2 * dot u v) <= dot u u + dot v v).
  { intros u v. pose proof (dot_self_nonneg (vadd u v)) as H1. pose proof (dot_self_nonneg (vsub u v)) as H2.
    assert (E1 : dot (vadd u v) (vadd u v) = dot u u + dot v v + 2 * dot u v) by vring.
    assert (E2 : dot (vsub u v) (vsub u v) = dot u u + dot v v - 2 * dot u v) by vring.
    apply Rabs_le. lra. }
  repeat split; auto; apply P; intros E; apply D; destruct c as [a b c]; cbn in E; subst;
    unfold det; cbn [row1 row2 row3]; vring.
Qed.

Lemma det_tcell t cell : unimodular t -> det cell <> 0 -> det (tcell t cell) <> 0.
Proof.
  intros U D. unfold tcell. rewrite det_mmul, ofZ_det, zdet_tr.
  destruct U as [-> | ->]; lra.
Qed.

(* ---------- ranking ---------- *)
Definition M1 p := 3 * nA p + 2 * nB p + nC p.
Definition Wt p := Rabs (nxi p) + 2 * Rabs (neta p) + 3 * Rabs (nzeta p).
Definition lexlt p p' := M1 p' < M1 p \/ (M1 p' = M1 p /\ Wt p < Wt p').
Definition lexle p p' := lexlt p p' \/ (M1 p' = M1 p /\ Wt p' = Wt p).
Lemma lexle_lt p p' p'' : lexle p p' -> lexlt p' p'' -> lexlt p p''.
Proof. unfold lexle, lexlt. lra. Qed.
Lemma lexle_trans p p' p'' : lexle p p' -> lexle p' p'' -> lexle p p''.
Proof. unfold lexle, lexlt. lra. Qed.

Ltac abs_all := repeat match goal with
  | |- context [Rabs ?x] => unfold Rabs at 1; destruct (Rcase_abs x)
  | H : context [Rabs ?x] |- _ => unfold Rabs at 1 in H; destruct (Rcase_abs x)
  end.

Lemma lex_1 p : econd_1 p -> lexlt p (upd_1 p).
Proof. unfold econd_1, lexlt, upd_1, M1, Wt; cbn. intros [H|[H K]]; lra. Qed.
Lemma lex_2 p : econd_2 p -> lexlt p (upd_2 p).
Proof. unfold econd_2, lexlt, upd_2, M1, Wt; cbn. intros [H|[H K]]; lra. Qed.

Lemma Rabs_neg x : x <= 0 -> Rabs x = - x.
Proof. intros; apply Rabs_left1; auto. Qed.
Lemma Rabs_pos' x : 0 <= x -> Rabs x = x.
Proof. intros; apply Rabs_pos_eq; auto. Qed.

Lemma lex_5 p : 0 < nB p -> signed p -> econd_5 p -> lexlt p (upd_5 p).
Proof.
  unfold econd_5, lexlt, upd_5, M1, Wt. destruct p as [A B C x y z]; cbn. intros HB Sg Hc.
  assert (X : x <> 0).
  { intros ->. rewrite Rabs_R0 in Hc. lra. }
  destruct (sgn_sq x X) as [_ S]. 
  destruct Hc as [H|[[H K]|[H K]]].
  - left. lra.
  - subst x. destruct Sg as [Sg|Sg]; unfold signed in Sg; cbn in Sg; [|lra].
    right. unfold sgn. rewrite (Rltb_t 0 B) by lra.
    rewrite (Rabs_pos' B), (Rabs_pos' y), (Rabs_pos' z), (Rabs_neg (B - _)), (Rabs_neg (y - _)) by lra. lra.
  - subst x. destruct Sg as [Sg|Sg]; unfold signed in Sg; cbn in Sg; [lra|].
    right. unfold sgn. rewrite (Rltb_f 0 (-B)), (Rltb_t (-B) 0) by lra.
    rewrite (Rabs_neg (-B)), (Rabs_neg y), (Rabs_neg z), (Rabs_pos' (-B - _)), (Rabs_neg (y - _)) by lra. lra.
Qed.
Lemma lex_6 p : 0 < nA p -> signed p -> econd_6 p -> lexlt p (upd_6 p).
Proof.
  unfold econd_6, lexlt, upd_6, M1, Wt. destruct p as [A B C x y z]; cbn. intros HB Sg Hc.
  assert (X : y <> 0).
  { intros ->. rewrite Rabs_R0 in Hc. lra. }
  destruct (sgn_sq y X) as [_ S].
  destruct Hc as [H|[[H K]|[H K]]].
  - left. lra.
  - subst y. destruct Sg as [Sg|Sg]; cbn in Sg; [|lra].
    right. unfold sgn. rewrite (Rltb_t 0 A) by lra.
    rewrite (Rabs_pos' A), (Rabs_pos' x), (Rabs_pos' z), (Rabs_neg (A - _)), (Rabs_neg (x - _)) by lra. lra.
  - subst y. destruct Sg as [Sg|Sg]; cbn in Sg; [lra|].
    right. unfold sgn. rewrite (Rltb_f 0 (-A)), (Rltb_t (-A) 0) by lra.
    rewrite (Rabs_neg (-A)), (Rabs_neg x), (Rabs_neg z), (Rabs_pos' (-A - _)), (Rabs_neg (x - _)) by lra. lra.
Qed.
Lemma lex_7 p : 0 < nA p -> signed p -> econd_7 p -> lexlt p (upd_7 p).
Proof.
  unfold econd_7, lexlt, upd_7, M1, Wt. destruct p as [A B C x y z]; cbn. intros HB Sg Hc.
  assert (X : z <> 0).
  { intros ->. rewrite Rabs_R0 in Hc. lra. }
  destruct (sgn_sq z X) as [_ S].
  destruct Hc as [H|[[H K]|[H K]]].
  - left. lra.
  - subst z. destruct Sg as [Sg|Sg]; cbn in Sg; [|lra].
    right. unfold sgn. rewrite (Rltb_t 0 A) by lra.
    rewrite (Rabs_pos' A), (Rabs_pos' x), (Rabs_pos' y), (Rabs_neg (A - _)), (Rabs_neg (x - _)) by lra. lra.
  - subst z. destruct Sg as [Sg|Sg]; cbn in Sg; [lra|].
    right. unfold sgn. rewrite (Rltb_f 0 (-A)), (Rltb_t (-A) 0) by lra.
    rewrite (Rabs_neg (-A)), (Rabs_neg x), (Rabs_neg y), (Rabs_pos' (-A - _)), (Rabs_neg (x - _)) by lra. lra.
Qed.
Lemma lex_8 p : 0 < nA p -> nA p <= nB p -> signed p -> econd_8 p -> lexlt p (upd_8 p).
Proof.
  unfold econd_8, lexlt, upd_8, M1, Wt. destruct p as [A B C x y z]; cbn. intros HA HB Sg Hc.
  destruct Hc as [H|[H K]].
  - left. lra.
  - right. destruct Sg as [Sg|Sg]; cbn in Sg; [lra|].
    rewrite (Rabs_neg x), (Rabs_neg y), (Rabs_neg z), (Rabs_pos' (_ + _ + _)), (Rabs_pos' (_ + _ + _)) by lra. lra.
Qed.

Section Run.
  Variables (q e : R) (cell : mat).
  Hypothesis Hq : 0 < q.
  Hypothesis He : 0 <= e < q.
  Hypothesis He3 : e < q * q * q.
  Hypothesis Hq8 : default_atol < q.
  Hypothesis Hd : det cell <> 0.

  Definition inv p t := unimodular t /\ quantised q p /\ synced cell p t.

  Lemma sync_step p t m p' : synced cell p t ->
    cell_params (tcell m (tcell t cell)) = p' -> synced cell p' (zmul t m).
  Proof. unfold synced. intros _ H. rewrite tcell_mul. auto. Qed.

  Lemma inv_pos p t : inv p t ->
    0 < nA p /\ 0 < nB p /\ 0 < nC p /\
    Rabs (nxi p) <= nB p + nC p /\ Rabs (neta p) <= nA p + nC p /\ Rabs (nzeta p) <= nA p + nB p.
  Proof. intros (U & _ & ->). apply cp_pos. apply det_tcell; auto. Qed.

  Lemma after_1_inv p t : inv p t ->
    inv (fst (after_1 p t e)) (snd (after_1 p t e)) /\ lexle p (fst (after_1 p t e)).
  Proof.
    intros (U & Q & S). unfold after_1. destruct (step_1_cases p t e) as [[C E]|[C E]].
    - assert (U' : unimodular (snd (step_1 p t e))) by (apply step_1_uni; auto).
      rewrite E in *; cbn in *. split.
      + split; [exact U'|]. split; [apply upd_1_q; auto|].
        eapply sync_step; eauto. rewrite cp_1. unfold synced in S. rewrite S; reflexivity.
      + left. apply lex_1. apply (q_cond_1 q e); auto.
    - rewrite E; cbn. split; [split; auto|]. right; auto.
  Qed.

  Lemma after_34_inv p t : inv p t -> inv (fst (after_34 p t e)) (snd (after_34 p t e)).
  Proof.
    intros (U & Q & S). destruct (after_34_q q e Hq He He3 Hq8 p t Q) as (i & j & k & Hi & Hj & Hk & E).
    rewrite E; cbn. split; [|split].
    - apply unimodular_mul; auto. apply unimodular_diag; auto.
    - destruct Q as (? & ? & ? & ? & ? & ?). unfold quantised, diag_upd; cbn.
      repeat split; auto; apply mult_scale_l; auto.
    - eapply sync_step; eauto. rewrite cp_diag by auto. unfold synced in S. rewrite S; reflexivity.
  Qed.

  Lemma econd_5_nz p : 0 < nB p -> econd_5 p -> nxi p <> 0.
  Proof. unfold econd_5. intros H C E. rewrite E, Rabs_R0 in C. lra. Qed.
  Lemma econd_6_nz p : 0 < nA p -> econd_6 p -> neta p <> 0.
  Proof. unfold econd_6. intros H C E. rewrite E, Rabs_R0 in C. lra. Qed.
  Lemma econd_7_nz p : 0 < nA p -> econd_7 p -> nzeta p <> 0.
  Proof. unfold econd_7. intros H C E. rewrite E, Rabs_R0 in C. lra. Qed.

  Lemma reduced_quant p : quantised q p -> reduced e p -> reduced 0 p.
  Proof.
    intros (HA & HB & HC & Hx & Hy & Hz) [].
    assert (L : forall x y, multiple q x -> multiple q y -> x <= y + e -> x <= y + 0).
    { intros x y Mx My H. rewrite Rplus_0_r. apply Rnot_lt_le. intros F.
      pose proof (mult_gap q y x Hq My Mx F). lra. }
    assert (L' : forall x, multiple q x -> - e <= x -> - 0 <= x).
    { intros x Mx H. assert (0 <= x + 0) by (apply L; auto using mult_0; lra). lra. }
    assert (N : forall x y, near 0 x y -> near e x y).
    { intros x y. rewrite !near_iff. lra. }
    constructor; try assumption; intros;
      try (apply L; [solve [mult] | solve [mult] | auto]; fail);
      try (apply L'; [solve [mult] | auto]; fail).
    assert (K : 2 * (nA p + neta p) + nzeta p <= 0 + e) by (rewrite Rplus_0_l; auto).
    assert (2 * (nA p + neta p) + nzeta p <= 0 + 0) by (apply L; [mult| mult | exact K]). lra.
  Qed.

  Lemma pass_inv p t c p' t' : inv p t -> pass p t e = (c, p', t') ->
    inv p' t' /\ (c = true -> lexlt p p') /\ (c = false -> reduced 0 p').
  Proof.
    intros I E. pose proof (pass_cases p t e) as P. cbv zeta in P. rewrite E in P.
    pose proof (pass_uni p t e (proj1 I)) as U. rewrite E in U; cbn in U.
    destruct (after_1_inv p t I) as [I1 L1]. pose proof (after_1_not_cond p t e (proj1 He)) as N1.
    set (p1 := fst (after_1 p t e)) in *. set (t1 := snd (after_1 p t e)) in *.
    pose proof (after_34_inv p1 t1 I1) as I4. pose proof (after_34_spec p1 t1 e (proj1 He)) as S4. cbv zeta in S4.
    set (p4 := fst (after_34 p1 t1 e)) in *. set (t4 := snd (after_34 p1 t1 e)) in *.
    assert (L4 : lexle p p4).
    { apply (lexle_trans p p1); auto. right. unfold M1, Wt.
      destruct S4 as (-> & -> & -> & -> & -> & -> & _). lra. }
    assert (Sg : signed p4) by apply S4.
    assert (AB : nA p4 <= nB p4).
    { destruct S4 as (-> & -> & _). rewrite (q_cond_1 q e) in N1 by (auto; apply I1).
      unfold econd_1 in N1. apply Rnot_lt_le. intros F. apply N1; auto. }
    pose proof (inv_pos _ _ I4) as (PA & PB & PC & _).
    assert (Q4 : quantised q p4) by apply I4. assert (Y4 : synced cell p4 t4) by apply I4.
    destruct P as [[C P]|[(_ & C & P)|[(_ & _ & C & P)|[(_ & _ & _ & C & P)|[(_ & _ & _ & _ & C & P)|
      (C2 & C5 & C6 & C7 & C8 & P)]]]]]; injection P as -> -> ->.
    - apply (q_cond_2 q e) in C; [|auto|auto|apply I1]. split; [|split; [|discriminate]].
      + split; [exact U|]. split; [apply upd_2_q; apply I1|]. destruct I1 as (_ & _ & Y).
        eapply sync_step; eauto. rewrite cp_2. unfold synced in Y. rewrite Y; reflexivity.
      + intros _. apply (lexle_lt p p1); auto. apply lex_2; auto.
    - apply (q_cond_5 q e) in C; auto. split; [|split; [|discriminate]].
      + split; [exact U|]. split; [apply upd_5_q; auto|].
        eapply sync_step; eauto. pose proof (econd_5_nz _ PB C) as NZ.
        unfold synced in Y4. rewrite Y4 in *. apply cp_5; auto.
      + intros _. apply (lexle_lt p p4); auto. apply lex_5; auto.
    - apply (q_cond_6 q e) in C; auto. split; [|split; [|discriminate]].
      + split; [exact U|]. split; [apply upd_6_q; auto|].
        eapply sync_step; eauto. pose proof (econd_6_nz _ PA C) as NZ.
        unfold synced in Y4. rewrite Y4 in *. apply cp_6; auto.
      + intros _. apply (lexle_lt p p4); auto. apply lex_6; auto.
    - apply (q_cond_7 q e) in C; auto. split; [|split; [|discriminate]].
      + split; [exact U|]. split; [apply upd_7_q; auto|].
        eapply sync_step; eauto. pose proof (econd_7_nz _ PA C) as NZ.
        unfold synced in Y4. rewrite Y4 in *. apply cp_7; auto.
      + intros _. apply (lexle_lt p p4); auto. apply lex_7; auto.
    - apply (q_cond_8 q e) in C; auto. split; [|split; [|discriminate]].
      + split; [exact U|]. split; [apply upd_8_q; auto|].
        eapply sync_step; eauto. rewrite cp_8. unfold synced in Y4. rewrite Y4; reflexivity.
      + intros _. apply (lexle_lt p p4); auto. apply lex_8; auto.
    - split; [exact I4|]. split; [discriminate|]. intros _.
      apply reduced_quant; auto. apply (exit_reduced p t e p4 t4); [apply He|exact E].
  Qed.

  Lemma loop_inv fuel : forall n mx p t p' t' n',
    inv p t -> niggli_loop fuel n mx p t e = Ok (p', t', n') -> inv p' t' /\ reduced 0 p'.
  Proof.
    induction fuel; cbn [niggli_loop]; intros n mx p t p' t' n' I E; destruct (mx <? n)%Z; try discriminate.
    destruct (pass p t e) as [[c p1] t1] eqn:P. destruct (pass_inv _ _ _ _ _ I P) as (I1 & _ & Rd).
    destruct c.
    - eapply IHfuel; eauto.
    - injection E as <- <- <-. auto.
  Qed.

  (* rank in units of q *)
  Variable K : R.
  Definition rho p := M1 p / q * K + (3 * M1 p - Wt p) / q.
  Lemma Wt_bounds p t : inv p t -> 0 <= Wt p <= 3 * M1 p /\ 0 < M1 p.
  Proof.
    intros I. pose proof (inv_pos _ _ I). unfold Wt, M1.
    pose proof (Rabs_pos (nxi p)). pose proof (Rabs_pos (neta p)). pose proof (Rabs_pos (nzeta p)). lra.
  Qed.
  Lemma M1_mult p : quantised q p -> multiple q (M1 p).
  Proof. intros (?&?&?&?&?&?). unfold M1. mult. Qed.
  Lemma Wt_mult p : quantised q p -> multiple q (Wt p).
  Proof. intros (?&?&?&?&?&?). unfold Wt. mult. Qed.

  Lemma div_q_le x y : x <= y -> x / q <= y / q.
  Proof. intros. unfold Rdiv. apply Rmult_le_compat_r; auto. left. apply Rinv_0_lt_compat; auto. Qed.

  Lemma rho_dec p t p' t' : inv p t -> inv p' t' -> 3 * M1 p <= q * (K - 1) -> lexlt p p' ->
    rho p' <= rho p - 1 /\ 3 * M1 p' <= q * (K - 1).
  Proof.
    intros I I' HK L. pose proof (Wt_bounds _ _ I) as [W WM]. pose proof (Wt_bounds _ _ I') as [W' WM'].
    assert (Q : quantised q p) by apply I. assert (Q' : quantised q p') by apply I'.
    assert (KP : 0 < K). { assert (0 < q * (K - 1)) by lra. nra. }
    unfold rho. destruct L as [L|[L1 L2]].
    - pose proof (mult_gap q _ _ Hq (M1_mult _ Q') (M1_mult _ Q) L) as G. split; [|lra].
      assert (A1 : M1 p' / q <= M1 p / q - 1).
      { replace (M1 p / q - 1) with ((M1 p - q) / q) by (field; lra). apply div_q_le; lra. }
      assert (A2 : (3 * M1 p' - Wt p') / q <= K - 1).
      { replace (K - 1) with (q * (K - 1) / q) by (field; lra). apply div_q_le; lra. }
      assert (A3 : 0 <= (3 * M1 p - Wt p) / q).
      { apply Rmult_le_pos; [lra|]. left. apply Rinv_0_lt_compat; auto. }
      assert (M1 p' / q * K <= (M1 p / q - 1) * K) by (apply Rmult_le_compat_r; lra). lra.
    - rewrite L1. pose proof (mult_gap q _ _ Hq (Wt_mult _ Q) (Wt_mult _ Q') L2) as G. split; [|lra].
      assert ((3 * M1 p - Wt p') / q <= (3 * M1 p - Wt p) / q - 1).
      { replace ((3 * M1 p - Wt p) / q - 1) with ((3 * M1 p - Wt p - q) / q) by (field; lra).
        apply div_q_le; lra. }
      lra.
  Qed.
  Lemma rho_pos p t : inv p t -> 3 * M1 p <= q * (K - 1) -> 0 <= rho p.
  Proof.
    intros I HK. pose proof (Wt_bounds _ _ I) as [W WM].
    assert (KP : 0 < K). { assert (0 < q * (K - 1)) by lra. nra. }
    unfold rho. apply Rplus_le_le_0_compat.
    - apply Rmult_le_pos; [|lra]. apply Rmult_le_pos; [lra|]. left. apply Rinv_0_lt_compat; auto.
    - apply Rmult_le_pos; [lra|]. left. apply Rinv_0_lt_compat; auto.
  Qed.

  Lemma loop_terminates fuel : forall n mx p t,
    inv p t -> 3 * M1 p <= q * (K - 1) ->
    IZR n + rho p <= IZR mx -> (Z.of_nat fuel > mx - n)%Z ->
    exists r, niggli_loop fuel n mx p t e = Ok r.
  Proof.
    induction fuel; cbn [niggli_loop]; intros n mx p t I HK HR HF;
      pose proof (rho_pos _ _ I HK) as RP;
      assert (NM : (n <= mx)%Z) by (apply le_IZR; lra);
      destruct (Z.ltb_spec mx n); try lia.
    destruct (pass p t e) as [[c p1] t1] eqn:P. destruct (pass_inv _ _ _ _ _ I P) as (I1 & L & _).
    destruct c; [|eauto].
    destruct (rho_dec _ _ _ _ I I1 HK (L eq_refl)) as [R1 HK1].
    apply IHfuel; auto; [rewrite plus_IZR; lra | lia].
  Qed.
End Run.
