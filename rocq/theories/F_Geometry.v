(* F_Geometry.v : proofs about M_Geometry and M_Cell *)
From Verif Require Import Base M_Numerical F_Numerical M_Geometry M_Cell.
Open Scope R_scope.

(* ---------------- degrees / radians ---------------- *)
Lemma PI_pos : 0 < PI. Proof. apply PI_RGT_0. Qed.
Lemma deg_rad x : x * TODEGREES * TORADIANS = x.
Proof. unfold TODEGREES, TORADIANS. field. apply PI_neq0. Qed.
Lemma rad_deg x : x * TORADIANS * TODEGREES = x.
Proof. unfold TODEGREES, TORADIANS. field. apply PI_neq0. Qed.
Lemma TORADIANS_pos : 0 < TORADIANS.
Proof. unfold TORADIANS. pose proof PI_pos. lra. Qed.
Lemma TODEGREES_pos : 0 < TODEGREES.
Proof. unfold TODEGREES. apply Rdiv_lt_0_compat; [lra | apply PI_pos]. Qed.
Lemma rad_180 : 180 * TORADIANS = PI. Proof. unfold TORADIANS; field. Qed.
Lemma deg_PI : PI * TODEGREES = 180.
Proof. unfold TODEGREES; field; apply PI_neq0. Qed.
Lemma deg_range x : 0 <= x <= PI -> 0 <= x * TODEGREES <= 180.
Proof.
  intros [H1 H2]. pose proof TODEGREES_pos as T. split; [nra|].
  rewrite <- deg_PI. apply Rmult_le_compat_r; lra.
Qed.
Lemma rad_range x : 0 <= x <= 180 -> 0 <= x * TORADIANS <= PI.
Proof.
  intros [H1 H2]. pose proof TORADIANS_pos as T. split; [nra|].
  rewrite <- rad_180. apply Rmult_le_compat_r; lra.
Qed.
Lemma rad_range_lt x : 0 < x < 180 -> 0 < x * TORADIANS < PI.
Proof.
  intros [H1 H2]. pose proof TORADIANS_pos as T. split; [nra|].
  rewrite <- rad_180. apply Rmult_lt_compat_r; lra.
Qed.

Lemma cos_inj x y : 0 <= x <= PI -> 0 <= y <= PI -> cos x = cos y -> x = y.
Proof. intros Hx Hy E. rewrite <- (acos_cos x), <- (acos_cos y), E; auto. Qed.
Lemma cos_deg_inj x y : 0 <= x <= 180 -> 0 <= y <= 180 ->
  cos (x * TORADIANS) = cos (y * TORADIANS) -> x = y.
Proof.
  intros Hx Hy E. apply cos_inj in E; auto using rad_range.
  pose proof TORADIANS_pos. nra.
Qed.

(* ---------------- get_angle ---------------- *)
Lemma clip_id x : -1 <= x <= 1 -> clip x (-1) 1 = x.
Proof. intros [H1 H2]. unfold clip. rewrite Rmax_left, Rmin_left; lra. Qed.

Lemma unit_dot_bound u v : 0 < norm u -> 0 < norm v ->
  -1 <= dot (vscale (/ norm u) u) (vscale (/ norm v) v) <= 1.
Proof.
  intros Hu Hv. rewrite dot_scale_l, dot_scale_r.
  pose proof (cauchy_schwarz u v) as C.
  assert (P : 0 < norm u * norm v) by nra.
  assert (E : / norm u * (/ norm v * dot u v) = dot u v / (norm u * norm v)) by (field; lra).
  rewrite E. apply Rabs_def2_le || idtac.
  assert (D : - (norm u * norm v) <= dot u v <= norm u * norm v).
  { unfold Rabs in C; destruct (Rcase_abs (dot u v)); lra. }
  split.
  - apply (Rmult_le_reg_r (norm u * norm v)); auto. unfold Rdiv.
    rewrite Rmult_assoc, Rinv_l, Rmult_1_r; lra.
  - apply (Rmult_le_reg_r (norm u * norm v)); auto. unfold Rdiv.
    rewrite Rmult_assoc, Rinv_l, Rmult_1_r; lra.
Qed.

Lemma FLOAT_EPS_pos : 0 < FLOAT_EPS. Proof. unfold FLOAT_EPS; lra. Qed.

(* value of get_angle in radians when defined *)
Definition angle_rad (u v : vec) : R := acos (dot u v / (norm u * norm v)).

Lemma get_angle_ok u v r :
  FLOAT_EPS < norm u -> FLOAT_EPS < norm v ->
  get_angle u v r = Ok (if r then angle_rad u v else angle_rad u v * TODEGREES).
Proof.
  intros Hu Hv. pose proof FLOAT_EPS_pos. unfold get_angle.
  rewrite !Rabs_pos_eq by apply norm_nonneg.
  rewrite (proj2 (Rleb_false _ _) Hu), (proj2 (Rleb_false _ _) Hv). simpl.
  rewrite clip_id by (apply unit_dot_bound; lra).
  rewrite dot_scale_l, dot_scale_r.
  replace (/ norm u * (/ norm v * dot u v)) with (dot u v / (norm u * norm v)) by (field; lra).
  unfold angle_rad. destruct r; reflexivity.
Qed.
Lemma get_angle_err u v r :
  norm u <= FLOAT_EPS \/ norm v <= FLOAT_EPS -> get_angle u v r = Err ValueError.
Proof.
  intros H. unfold get_angle. rewrite !Rabs_pos_eq by apply norm_nonneg.
  destruct H as [H|H]; rewrite (proj2 (Rleb_true _ _) H); [reflexivity|].
  rewrite orb_true_r; reflexivity.
Qed.
Lemma dot_over_norm_bound u v : 0 < norm u -> 0 < norm v ->
  -1 <= dot u v / (norm u * norm v) <= 1.
Proof.
  intros Hu Hv. pose proof (unit_dot_bound u v Hu Hv) as B.
  rewrite dot_scale_l, dot_scale_r in B.
  replace (dot u v / (norm u * norm v)) with (/ norm u * (/ norm v * dot u v)) by (field; lra).
  exact B.
Qed.
Lemma angle_rad_spec u v : 0 < norm u -> 0 < norm v ->
  0 <= angle_rad u v <= PI /\ cos (angle_rad u v) * norm u * norm v = dot u v.
Proof.
  intros Hu Hv. split; [apply acos_bound|].
  unfold angle_rad. rewrite cos_acos by (apply dot_over_norm_bound; auto).
  field; lra.
Qed.
Lemma angle_rad_unique u v t : 0 < norm u -> 0 < norm v ->
  0 <= t <= PI -> cos t * norm u * norm v = dot u v -> angle_rad u v = t.
Proof.
  intros Hu Hv Ht E. apply cos_inj; auto. apply acos_bound.
  destruct (angle_rad_spec u v Hu Hv) as [_ E2].
  apply (Rmult_eq_reg_r (norm u * norm v)); [lra|]. nra.
Qed.
Lemma angle_rad_sym u v : angle_rad u v = angle_rad v u.
Proof. unfold angle_rad. rewrite dot_comm, (Rmult_comm (norm u)). reflexivity. Qed.
Lemma angle_rad_scale k u v : 0 < k -> 0 < norm u -> 0 < norm v ->
  angle_rad (vscale k u) v = angle_rad u v.
Proof.
  intros Hk Hu Hv. unfold angle_rad. rewrite norm_scale, dot_scale_l, Rabs_pos_eq by lra.
  f_equal. field; lra.
Qed.
Lemma angle_rad_neg u v : 0 < norm u -> 0 < norm v ->
  angle_rad (vneg u) v = PI - angle_rad u v.
Proof.
  intros Hu Hv. unfold angle_rad. rewrite norm_neg, dot_neg_l.
  rewrite <- acos_opp. f_equal. field; lra.
Qed.

(* ---------------- the radicand ---------------- *)
Lemma radicand_factor al be ga :
  radicand al be ga = (cos al - cos (be + ga)) * (cos (be - ga) - cos al).
Proof.
  unfold radicand. rewrite cos_plus, cos_minus.
  pose proof (sin2_cos2 be) as B. pose proof (sin2_cos2 ga) as G. unfold Rsqr in *.
  assert (SB : sin be * sin be = 1 - cos be * cos be) by lra.
  assert (SG : sin ga * sin ga = 1 - cos ga * cos ga) by lra.
  transitivity ((1 - cos be * cos be) * (1 - cos ga * cos ga)
                - (cos al - cos be * cos ga) * (cos al - cos be * cos ga)); [ring|].
  rewrite <- SB, <- SG. ring.
Qed.
Lemma radicand_perm_12 a b c : radicand a b c = radicand b a c.
Proof. unfold radicand; ring. Qed.
Lemma radicand_perm_23 a b c : radicand a b c = radicand a c b.
Proof. unfold radicand; ring. Qed.

(* radians: triangle conditions <-> positive radicand *)
Lemma cos_abs x : cos (Rabs x) = cos x.
Proof. unfold Rabs; destruct (Rcase_abs x); auto using cos_neg. Qed.
Lemma radicand_pos al be ga :
  0 < al < PI -> 0 < be < PI -> 0 < ga < PI ->
  (0 < radicand al be ga <->
   al < be + ga /\ be < al + ga /\ ga < al + be /\ al + be + ga < 2 * PI).
Proof.
  intros Ha Hb Hg. rewrite radicand_factor.
  assert (AB : Rabs (be - ga) < PI).
  { apply Rabs_def1; lra. }
  pose proof (Rabs_pos (be - ga)) as AP.
  assert (S : 0 < sin be * sin ga).
  { apply Rmult_lt_0_compat; apply sin_gt_0; lra. }
  split.
  - intros H.
    assert (K : cos (be + ga) < cos (be - ga)) by (rewrite cos_plus, cos_minus; lra).
    assert (F : cos (be + ga) < cos al /\ cos al < cos (be - ga)).
    { destruct (Rlt_dec (cos (be + ga)) (cos al)) as [L|L].
      - split; auto. apply Rnot_le_lt; intros N. nra.
      - exfalso. apply Rnot_lt_le in L.
        assert (0 < cos (be - ga) - cos al) by lra. nra. }
    destruct F as [F1 F2].
    rewrite <- (cos_abs (be - ga)) in F2. apply cos_decreasing_0 in F2; try lra.
    assert (T : al < be + ga /\ al + be + ga < 2 * PI).
    { destruct (Rle_dec (be + ga) PI) as [L|L].
      - apply cos_decreasing_0 in F1; try lra.
      - replace (be + ga) with (2 * PI - (2 * PI - (be + ga))) in F1 by ring.
        assert (E : cos (2 * PI - (2 * PI - (be + ga))) = cos (2 * PI - (be + ga))).
        { replace (2 * PI - (2 * PI - (be + ga))) with (- (2 * PI - (be + ga)) + 2 * INR 1 * PI) by (simpl; ring).
          rewrite cos_period, cos_neg. reflexivity. }
        rewrite E in F1. apply cos_decreasing_0 in F1; lra. }
    unfold Rabs in F2; destruct (Rcase_abs (be - ga)); lra.
  - intros (H1 & H2 & H3 & H4). apply Rmult_lt_0_compat.
    + assert (cos (be + ga) < cos al); [|lra].
      destruct (Rle_dec (be + ga) PI) as [L|L].
      * apply cos_decreasing_1; lra.
      * assert (E : cos (be + ga) = cos (2 * PI - (be + ga))).
        { replace (be + ga) with (- (2 * PI - (be + ga)) + 2 * INR 1 * PI) at 1 by (simpl; ring).
          rewrite cos_period, cos_neg. reflexivity. }
        rewrite E. apply cos_decreasing_1; lra.
    + assert (cos al < cos (be - ga)); [|lra].
      rewrite <- (cos_abs (be - ga)). apply cos_decreasing_1; try lra.
      unfold Rabs; destruct (Rcase_abs (be - ga)); lra.
Qed.

(* ---------------- parallelepiped_check ---------------- *)
Lemma ppc_spec a b c al be ga lt at_ :
  ppc a b c al be ga lt at_ = true <->
  (lt < a /\ lt < b /\ lt < c /\
   at_ < al < 180 - at_ /\ at_ < be < 180 - at_ /\ at_ < ga < 180 - at_ /\
   ga + at_ < al + be /\ be + at_ < al + ga /\ al + at_ < be + ga /\
   al + be + ga < 360 - at_).
Proof.
  unfold ppc. rewrite !andb_true_iff, !cwt_gt, !cwt_lt. split; intros H; lra.
Qed.
Lemma ppc_perm_12 a b c al be ga lt at_ :
  ppc a b c al be ga lt at_ = ppc b a c be al ga lt at_.
Proof. apply eq_true_iff_eq. rewrite !ppc_spec. split; intros H; lra. Qed.
Lemma ppc_perm_23 a b c al be ga lt at_ :
  ppc a b c al be ga lt at_ = ppc a c b al ga be lt at_.
Proof. apply eq_true_iff_eq. rewrite !ppc_spec. split; intros H; lra. Qed.
Lemma ppc_radicand a b c al be ga lt at_ : 0 <= at_ ->
  ppc a b c al be ga lt at_ = true ->
  0 < radicand (al * TORADIANS) (be * TORADIANS) (ga * TORADIANS).
Proof.
  intros Ht H. apply ppc_spec in H.
  pose proof TORADIANS_pos as T.
  assert (P2 : 2 * PI = 360 * TORADIANS) by (unfold TORADIANS; field).
  apply radicand_pos; try (apply rad_range_lt; lra).
  rewrite P2. repeat split; nra.
Qed.

(* ---------------- parameters of a cell ---------------- *)
(* Specification: the cell has the given lengths and (degree) angles. *)
Definition has_params (m : mat) (a b c al be ga : R) : Prop :=
  norm (row1 m) = a /\ norm (row2 m) = b /\ norm (row3 m) = c /\
  0 <= al <= 180 /\ 0 <= be <= 180 /\ 0 <= ga <= 180 /\
  dot (row2 m) (row3 m) = b * c * cos (al * TORADIANS) /\
  dot (row1 m) (row3 m) = a * c * cos (be * TORADIANS) /\
  dot (row1 m) (row2 m) = a * b * cos (ga * TORADIANS).

Lemma gram_det m : det m * det m =
  let aa := dot (row1 m) (row1 m) in let bb := dot (row2 m) (row2 m) in
  let cc := dot (row3 m) (row3 m) in
  let bc := dot (row2 m) (row3 m) in let ac := dot (row1 m) (row3 m) in
  let ab := dot (row1 m) (row2 m) in
  aa * bb * cc + 2 * bc * ac * ab - aa * bc * bc - bb * ac * ac - cc * ab * ab.
Proof. cbv zeta. vring. Qed.

Lemma has_params_det m a b c al be ga : has_params m a b c al be ga ->
  det m * det m = (a * b * c) * (a * b * c)
                  * radicand (al * TORADIANS) (be * TORADIANS) (ga * TORADIANS).
Proof.
  intros (A & B & C & _ & _ & _ & BC & AC & AB).
  rewrite gram_det; cbv zeta. rewrite BC, AC, AB, <- !norm_sqr, A, B, C.
  unfold radicand; ring.
Qed.
Lemma has_params_vol m a b c al be ga : has_params m a b c al be ga ->
  0 <= radicand (al * TORADIANS) (be * TORADIANS) (ga * TORADIANS) ->
  Rabs (det m) = a * b * c * sqrt (radicand (al * TORADIANS) (be * TORADIANS) (ga * TORADIANS)).
Proof.
  intros H Hr. pose proof (has_params_det _ _ _ _ _ _ _ H) as D.
  destruct H as (A & B & C & _).
  pose proof (norm_nonneg (row1 m)). pose proof (norm_nonneg (row2 m)). pose proof (norm_nonneg (row3 m)).
  rewrite A, B, C in *.
  rewrite <- sqrt_Rsqr_abs. unfold Rsqr. rewrite D, sqrt_mult_alt by nra.
  rewrite sqrt_square; [ring|]. apply Rmult_le_pos; auto. nra.
Qed.

Lemma get_params_ok m :
  FLOAT_EPS < norm (row1 m) -> FLOAT_EPS < norm (row2 m) -> FLOAT_EPS < norm (row3 m) ->
  exists p, get_params m = Ok p /\
    has_params m (pa p) (pb p) (pc p) (palpha p) (pbeta p) (pgamma p).
Proof.
  intros H1 H2 H3. pose proof FLOAT_EPS_pos. unfold get_params.
  rewrite !get_angle_ok by assumption. simpl. eexists; split; [reflexivity|].
  unfold has_params; simpl.
  destruct (angle_rad_spec (row2 m) (row3 m)) as [RA EA]; try lra.
  destruct (angle_rad_spec (row1 m) (row3 m)) as [RB EB]; try lra.
  destruct (angle_rad_spec (row1 m) (row2 m)) as [RC EC]; try lra.
  rewrite !deg_rad. repeat split; try (apply deg_range; assumption); try lra.
Qed.
Lemma get_params_err m :
  norm (row1 m) <= FLOAT_EPS \/ norm (row2 m) <= FLOAT_EPS \/ norm (row3 m) <= FLOAT_EPS ->
  get_params m = Err ValueError.
Proof.
  intros H. unfold get_params.
  destruct (Rlt_dec FLOAT_EPS (norm (row2 m))) as [L2|L2];
    [|rewrite get_angle_err by (left; lra); reflexivity].
  destruct (Rlt_dec FLOAT_EPS (norm (row3 m))) as [L3|L3];
    [|rewrite get_angle_err by (right; lra); reflexivity].
  rewrite get_angle_ok by assumption. simpl.
  rewrite get_angle_err by (left; lra). reflexivity.
Qed.
Lemma has_params_fun m p a b c al be ga :
  0 < norm (row1 m) -> 0 < norm (row2 m) -> 0 < norm (row3 m) ->
  has_params m (pa p) (pb p) (pc p) (palpha p) (pbeta p) (pgamma p) ->
  has_params m a b c al be ga -> p = Params a b c al be ga.
Proof.
  intros P1 P2 P3 (A & B & C & R1 & R2 & R3 & E1 & E2 & E3)
         (A' & B' & C' & R1' & R2' & R3' & E1' & E2' & E3').
  destruct p as [a0 b0 c0 al0 be0 ga0]; simpl in *.
  rewrite E1 in E1'. rewrite E2 in E2'. rewrite E3 in E3'.
  rewrite A in A'. rewrite B in B'. rewrite C in C'. rewrite A in P1. rewrite B in P2. rewrite C in P3.
  subst a b c. f_equal; apply cos_deg_inj; auto.
  - apply (Rmult_eq_reg_l (b0 * c0)); [lra | nra].
  - apply (Rmult_eq_reg_l (a0 * c0)); [lra | nra].
  - apply (Rmult_eq_reg_l (a0 * b0)); [lra | nra].
Qed.
Lemma get_params_of m a b c al be ga :
  FLOAT_EPS < a -> FLOAT_EPS < b -> FLOAT_EPS < c ->
  has_params m a b c al be ga -> get_params m = Ok (Params a b c al be ga).
Proof.
  intros Ha Hb Hc H. pose proof H as (A & B & C & _). pose proof FLOAT_EPS_pos.
  destruct (get_params_ok m) as (p & E & Hp); [rewrite A; auto|rewrite B; auto|rewrite C; auto|].
  rewrite E. f_equal. eapply has_params_fun; eauto; lra.
Qed.

(* ---------------- from_params ---------------- *)
Lemma py_sqrt_ok x : 0 <= x -> py_sqrt x = Ok (sqrt x).
Proof. intros H. unfold py_sqrt. rewrite (proj2 (Rltb_false x 0)) by lra. reflexivity. Qed.

Definition params_cell (a b c al be ga : R) : mat :=
  mk a 0 0
     (b * cos ga) (b * sin ga) 0
     (c * cos be)
     (c / sin ga * (cos al - cos be * cos ga))
     (c / sin ga * sqrt (radicand al be ga)).

Lemma params_cell_has a b c al be ga :
  0 < a -> 0 < b -> 0 < c -> 0 < al < 180 -> 0 < be < 180 -> 0 < ga < 180 ->
  0 < radicand (al * TORADIANS) (be * TORADIANS) (ga * TORADIANS) ->
  let m := params_cell a b c (al * TORADIANS) (be * TORADIANS) (ga * TORADIANS) in
  has_params m a b c al be ga /\ 0 < det m.
Proof.
  intros Ha Hb Hc Hal Hbe Hga Hr m.
  apply rad_range_lt in Hal as Ral. apply rad_range_lt in Hbe as Rbe.
  apply rad_range_lt in Hga as Rga.
  set (A := al * TORADIANS) in *. set (B := be * TORADIANS) in *. set (G := ga * TORADIANS) in *.
  assert (SG : 0 < sin G) by (apply sin_gt_0; lra).
  assert (SG2 : sin G * sin G = 1 - cos G * cos G).
  { pose proof (sin2_cos2 G) as K; unfold Rsqr in K; lra. }
  assert (Q : sqrt (radicand A B G) * sqrt (radicand A B G) = radicand A B G)
    by (apply sqrt_sqrt; lra).
  assert (N3 : dot (row3 m) (row3 m) = c * c).
  { unfold m, params_cell, mk, dot; simpl.
    transitivity (c * c * (cos B * cos B + ((cos A - cos B * cos G) * (cos A - cos B * cos G)
       + sqrt (radicand A B G) * sqrt (radicand A B G)) / (sin G * sin G))); [field; lra|].
    rewrite Q. unfold radicand.
    replace ((cos A - cos B * cos G) * (cos A - cos B * cos G) +
       (1 + 2 * cos A * cos B * cos G - cos A * cos A - cos B * cos B - cos G * cos G))
      with ((1 - cos B * cos B) * (1 - cos G * cos G)) by ring.
    rewrite <- SG2. field. lra. }
  assert (N2 : dot (row2 m) (row2 m) = b * b).
  { unfold m, params_cell, mk, dot; simpl.
    transitivity (b * b * (cos G * cos G + sin G * sin G)); [ring|]. rewrite SG2; ring. }
  assert (N1 : dot (row1 m) (row1 m) = a * a).
  { unfold m, params_cell, mk, dot; simpl. ring. }
  split.
  - unfold has_params, norm. rewrite N1, N2, N3, !sqrt_square by lra.
    repeat split; try lra; fold A B G; unfold m, params_cell, mk, dot; simpl.
    + transitivity (b * c * (cos G * cos B + (cos A - cos B * cos G))); [field; lra | ring].
    + ring.
    + ring.
  - replace (det m) with (a * b * c * sqrt (radicand A B G)).
    + apply Rmult_lt_0_compat; [|apply sqrt_lt_R0; auto].
      apply Rmult_lt_0_compat; [apply Rmult_lt_0_compat|]; auto.
    + unfold m, params_cell, mk, det, dot, cross; simpl. field; lra.
Qed.

Lemma from_params_ok a b c al be ga :
  ppc a b c al be ga default_length_tolerance default_angle_tolerance = true ->
  from_params a b c al be ga =
    Ok (params_cell a b c (al * TORADIANS) (be * TORADIANS) (ga * TORADIANS)).
Proof.
  intros H. unfold from_params, parallelepiped_check. rewrite H. simpl.
  rewrite py_sqrt_ok; [reflexivity|]. left.
  eapply ppc_radicand; eauto. unfold default_angle_tolerance; lra.
Qed.
Lemma from_params_err a b c al be ga :
  ppc a b c al be ga default_length_tolerance default_angle_tolerance = false ->
  from_params a b c al be ga = Err ValueError.
Proof. intros H. unfold from_params, parallelepiped_check. rewrite H. reflexivity. Qed.
Lemma ppc_cell a b c al be ga :
  ppc a b c al be ga default_length_tolerance default_angle_tolerance = true ->
  let m := params_cell a b c (al * TORADIANS) (be * TORADIANS) (ga * TORADIANS) in
  has_params m a b c al be ga /\ 0 < det m.
Proof.
  intros H. pose proof H as K. apply ppc_spec in K.
  unfold default_length_tolerance, default_angle_tolerance in K.
  apply params_cell_has; try lra.
  eapply ppc_radicand; eauto. unfold default_angle_tolerance; lra.
Qed.

(* a non-degenerate cell satisfies the strict triangle conditions *)
Lemma has_params_strict m a b c al be ga :
  has_params m a b c al be ga -> det m <> 0 ->
  ppc a b c al be ga 0 0 = true.
Proof.
  intros H D. pose proof (has_params_det _ _ _ _ _ _ _ H) as E.
  destruct H as (A & B & C & Ra & Rb & Rg & _).
  pose proof (norm_nonneg (row1 m)) as N1. pose proof (norm_nonneg (row2 m)) as N2.
  pose proof (norm_nonneg (row3 m)) as N3. rewrite A in N1. rewrite B in N2. rewrite C in N3.
  assert (D2 : 0 < det m * det m) by nra. rewrite E in D2.
  set (rd := radicand (al * TORADIANS) (be * TORADIANS) (ga * TORADIANS)) in *.
  assert (a <> 0) by (intros ->; rewrite !Rmult_0_l in D2; lra).
  assert (b <> 0) by (intros ->; rewrite !Rmult_0_r, !Rmult_0_l in D2; lra).
  assert (c <> 0) by (intros ->; rewrite !Rmult_0_r, !Rmult_0_l in D2; lra).
  assert (Hrd : 0 < rd).
  { apply Rnot_le_lt; intros N. pose proof (Rle_0_sqr (a * b * c)) as Q; unfold Rsqr in Q. nra. }
  assert (X : forall x y z, radicand x y z <= (1 - cos x * cos x) * (1 - cos y * cos y)).
  { intros x y z. unfold radicand.
    pose proof (Rle_0_sqr (cos z - cos x * cos y)) as K; unfold Rsqr in K. nra. }
  assert (Y : forall x y z, 0 < radicand x y z -> cos x * cos x <> 1 /\ cos y * cos y <> 1).
  { intros x y z P. specialize (X x y z). split; intros F; rewrite F in X; nra. }
  destruct (Y _ _ _ Hrd) as [Ya Yb].
  assert (Hrd' : 0 < radicand (al * TORADIANS) (ga * TORADIANS) (be * TORADIANS))
    by (rewrite radicand_perm_23; exact Hrd).
  destruct (Y _ _ _ Hrd') as [_ Yg].
  assert (Z : forall t, 0 <= t <= 180 -> cos (t * TORADIANS) * cos (t * TORADIANS) <> 1 -> 0 < t < 180).
  { intros t Ht F. split.
    - destruct (Req_dec t 0) as [->|]; [|lra]. exfalso; apply F.
      rewrite Rmult_0_l, cos_0; ring.
    - destruct (Req_dec t 180) as [->|]; [|lra]. exfalso; apply F.
      rewrite rad_180, cos_PI; ring. }
  apply Z in Ya; auto. apply Z in Yb; auto. apply Z in Yg; auto.
  apply radicand_pos in Hrd; try (apply rad_range_lt; assumption).
  assert (P2 : 2 * PI = 360 * TORADIANS) by (unfold TORADIANS; field).
  rewrite P2 in Hrd. pose proof TORADIANS_pos as T.
  apply ppc_spec. destruct Hrd as (h1 & h2 & h3 & h4).
  assert (al < be + ga) by nra. assert (be < al + ga) by nra. assert (ga < al + be) by nra.
  assert (al + be + ga < 360) by nra. lra.
Qed.

(* ---------------- reciprocal cell, transformation matrix ---------------- *)
Lemma get_reciprocal_ok m : det m <> 0 ->
  get_reciprocal m = Ok (mscale (2 * PI) (tr (minv_total m))).
Proof.
  intros H. unfold get_reciprocal, minv. rewrite (proj2 (Reqb_false _ _) H). reflexivity.
Qed.
Lemma get_reciprocal_err m : det m = 0 -> get_reciprocal m = Err LinAlgError.
Proof.
  intros H. unfold get_reciprocal, minv. rewrite (proj2 (Reqb_true _ _) H). reflexivity.
Qed.
Lemma reciprocal_dual m r : get_reciprocal m = Ok r -> mmul r (tr m) = mscale (2 * PI) mid.
Proof.
  intros H. destruct (Req_dec (det m) 0) as [D|D].
  - rewrite get_reciprocal_err in H by auto; discriminate.
  - rewrite get_reciprocal_ok in H by auto. injection H as <-.
    transitivity (mscale (2 * PI) (tr (mmul m (minv_total m)))).
    + generalize (minv_total m). generalize (2 * PI). vring.
    + rewrite minv_r by auto. vring.
Qed.
Lemma det_mscale k m : det (mscale k m) = k * k * k * det m.
Proof. vring. Qed.
Lemma reciprocal_det m r : get_reciprocal m = Ok r ->
  det r * det m = 2 * PI * (2 * PI) * (2 * PI).
Proof.
  intros H. pose proof (reciprocal_dual m r H) as D.
  apply (f_equal det) in D. rewrite det_mmul, det_tr, det_mscale, det_id in D. lra.
Qed.
Lemma reciprocal_unique m r : det m <> 0 -> mmul r (tr m) = mscale (2 * PI) mid ->
  get_reciprocal m = Ok r.
Proof.
  intros D E. rewrite get_reciprocal_ok by auto. f_equal.
  apply (mmul_cancel_r (tr m)); [rewrite det_tr; auto|]. rewrite E.
  transitivity (mscale (2 * PI) (tr (mmul m (minv_total m)))).
  - generalize (minv_total m). generalize (2 * PI). vring.
  - rewrite minv_r by auto. vring.
Qed.
Lemma reciprocal_involution m r : get_reciprocal m = Ok r -> get_reciprocal r = Ok m.
Proof.
  intros H. apply reciprocal_unique.
  - pose proof (reciprocal_det m r H) as D. intros E. rewrite E, Rmult_0_l in D.
    pose proof PI_pos as P. assert (P2 : 0 < 2 * PI) by lra.
    pose proof (Rmult_lt_0_compat _ _ (Rmult_lt_0_compat _ _ P2 P2) P2). lra.
  - apply reciprocal_dual in H. apply (f_equal tr) in H. rewrite tr_mmul, tr_tr in H.
    rewrite H. vring.
Qed.

Lemma transformation_spec o t m : get_transformation_matrix o t = Ok m ->
  mmul (tr m) o = t.
Proof.
  unfold get_transformation_matrix, minv.
  destruct (Reqb_spec (det o) 0) as [D|D]; [discriminate|]. simpl. intros E; injection E as <-.
  rewrite tr_mmul, !tr_tr, mmul_assoc, minv_l, mmul_id_r by auto. reflexivity.
Qed.
Lemma transformation_unique o t m m' : get_transformation_matrix o t = Ok m ->
  mmul (tr m') o = t -> m' = m.
Proof.
  intros H E. pose proof (transformation_spec _ _ _ H) as S.
  unfold get_transformation_matrix, minv in H.
  destruct (Reqb_spec (det o) 0) as [D|D]; [discriminate|].
  rewrite <- E in S. apply mmul_cancel_r in S; auto.
  rewrite <- (tr_tr m), <- (tr_tr m'), S. reflexivity.
Qed.
Lemma transformation_defined o t :
  (det o <> 0 -> exists m, get_transformation_matrix o t = Ok m) /\
  (det o = 0 -> get_transformation_matrix o t = Err LinAlgError).
Proof.
  unfold get_transformation_matrix, minv. destruct (Reqb_spec (det o) 0) as [D|D]; split; intros; try contradiction; simpl; eauto.
Qed.

(* isometries *)
Definition orthogonal (q : mat) : Prop := mmul q (tr q) = mid.
Lemma dot_as_vmat u v q : orthogonal q -> dot (vmat u q) (vmat v q) = dot u v.
Proof.
  intros H. unfold orthogonal in H.
  assert (E : dot (vmat u q) (vmat v q) = dot u (vmat v (mmul q (tr q)))) by vring.
  rewrite E, H, vmat_id. reflexivity.
Qed.
Lemma norm_vmat u q : orthogonal q -> norm (vmat u q) = norm u.
Proof. intros H. unfold norm. rewrite dot_as_vmat; auto. Qed.

(* ---------------- linear dependence ---------------- *)
Lemma lin_dep m : det m = 0 -> exists x, x <> vzero /\ vmat x m = vzero.
Proof.
  intros D.
  assert (K : forall r, In r [row1 (adj m); row2 (adj m); row3 (adj m)] -> vmat r m = vzero).
  { pose proof (mmul_adj_l m) as E. rewrite D in E.
    assert (Z : mscale 0 mid = M3 vzero vzero vzero) by vring. rewrite Z in E.
    intros r [<-|[<-|[<-|[]]]];
      [exact (f_equal row1 E) | exact (f_equal row2 E) | exact (f_equal row3 E)]. }
  assert (dz : forall v : vec, {v = vzero} + {v <> vzero}).
  { intros [a b c]. destruct (Req_EM_T a 0), (Req_EM_T b 0), (Req_EM_T c 0); subst;
      try (right; intros F; injection F; intros; subst; contradiction). left; reflexivity. }
  destruct (dz (row1 (adj m))) as [A1|A1]; [|exists (row1 (adj m)); split; auto; apply K; simpl; auto].
  destruct (dz (row2 (adj m))) as [A2|A2]; [|exists (row2 (adj m)); split; auto; apply K; simpl; auto].
  destruct (dz (row3 (adj m))) as [A3|A3]; [|exists (row3 (adj m)); split; auto; apply K; simpl; auto].
  destruct (dz (row1 m)) as [R|R].
  - exists (V3 1 0 0). split; [intros F; injection F; lra|].
    destruct m as [[a b c] [d e f] [g h i]]. cbn in R. injection R; intros; subst.
    vunfold. vcomp; ring.
  - exists (V3 (dot (row1 m) (row2 m)) (- dot (row1 m) (row1 m)) 0). split.
    + intros F; injection F; intros F1 F2. apply R, dot_self_zero. lra.
    + destruct m as [[a b c] [d e f] [g h i]].
      cbn in A1, A2, A3. unfold vzero in *. injection A1; intros. injection A2; intros. injection A3; intros.
      assert (X1 : a * e = b * d) by lra. assert (X2 : a * f = c * d) by lra.
      assert (X3 : b * f = c * e) by lra.
      vunfold. f_equal.
      * transitivity (b * (a * e - b * d) + c * (a * f - c * d)); [ring|]. rewrite X1, X2; ring.
      * transitivity (a * (b * d - a * e) + c * (b * f - c * e)); [ring|]. rewrite X1, X3; ring.
      * transitivity (a * (c * d - a * f) + b * (c * e - b * f)); [ring|]. rewrite X2, X3; ring.
Qed.
Lemma lin_indep m x : det m <> 0 -> vmat x m = vzero -> x = vzero.
Proof.
  intros D E. apply (vmat_cancel m); auto. rewrite E. vring.
Qed.
