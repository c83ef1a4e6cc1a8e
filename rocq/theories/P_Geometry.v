(* P_Geometry.v : properties C03 - C10 *)
From Verif Require Import Base M_Numerical F_Numerical M_Geometry M_Cell F_Geometry F_Spherical.
Open Scope R_scope.

(* ======================= C03 get_volume ======================= *)
(* The two vector forms agree with each other; the value is the absolute triple product. *)
Theorem C03_forms_agree : forall v1 v2 v3,
  get_volume (VolCell (M3 v1 v2 v3)) = get_volume (VolVectors v1 v2 v3) /\
  get_volume (VolVectors v1 v2 v3) = Ok (Rabs (dot v1 (cross v2 v3))).
Proof. intros; split; reflexivity. Qed.
Print Assumptions C03_forms_agree.

(* A volume: non-negative, and zero exactly for linearly dependent vectors. *)
Theorem C03_zero_iff_dependent : forall v1 v2 v3 vol,
  get_volume (VolVectors v1 v2 v3) = Ok vol ->
  0 <= vol /\
  (vol = 0 <-> exists x y z, (x, y, z) <> (0, 0, 0) /\
     vadd (vscale x v1) (vadd (vscale y v2) (vscale z v3)) = vzero).
Proof.
  intros v1 v2 v3 vol H. simpl in H. injection H as <-. split; [apply Rabs_pos|].
  assert (L : forall x y z, vmat (V3 x y z) (M3 v1 v2 v3)
              = vadd (vscale x v1) (vadd (vscale y v2) (vscale z v3))) by vring.
  split.
  - intros E. assert (D : det (M3 v1 v2 v3) = 0).
    { destruct (Req_dec (det (M3 v1 v2 v3)) 0); auto.
      exfalso. apply (Rabs_no_R0 _ H E). }
    destruct (lin_dep _ D) as ([x y z] & N & V). exists x, y, z. split.
    + intros F; injection F; intros; subst. apply N; reflexivity.
    + rewrite <- L. exact V.
  - intros (x & y & z & N & V). destruct (Req_dec (det (M3 v1 v2 v3)) 0) as [E|E].
    + rewrite E. apply Rabs_R0.
    + exfalso. rewrite <- L in V. apply lin_indep in V; auto.
      injection V; intros; subst. apply N; reflexivity.
Qed.
Print Assumptions C03_zero_iff_dependent.

(* Invariance under any unimodular integer change of basis, and scaling. *)
Theorem C03_basis_change : forall (k : zmat) cell,
  zdet k = 1%Z \/ zdet k = (-1)%Z ->
  get_volume (VolCell (mmul (ofZ k) cell)) = get_volume (VolCell cell).
Proof.
  intros k cell H. simpl. f_equal. rewrite det_mmul, ofZ_det.
  destruct H as [-> | ->].
  - rewrite Rmult_1_l; reflexivity.
  - replace (-1 * det cell) with (- det cell) by ring. apply Rabs_Ropp.
Qed.
Print Assumptions C03_basis_change.
Example C03_basis_change_nonvacuous : zdet (Zm 0 1 0 1 0 0 3 5 1) = (-1)%Z.
Proof. reflexivity. Qed.
Theorem C03_scaling : forall k v1 v2 v3 vol,
  get_volume (VolVectors v1 v2 v3) = Ok vol ->
  get_volume (VolVectors (vscale k v1) v2 v3) = Ok (Rabs k * vol).
Proof.
  intros k v1 v2 v3 vol H. simpl in *. injection H as <-. f_equal. rewrite <- Rabs_mult. f_equal. vring.
Qed.
Print Assumptions C03_scaling.

(* The six-parameter form is the volume of every cell that has these parameters,
   in particular of the cell the parameters were computed from. *)
Theorem C03_params_form : forall cell a b c al be ga,
  has_params cell a b c al be ga -> det cell <> 0 ->
  get_volume (VolParams a b c al be ga) = get_volume (VolCell cell).
Proof.
  intros cell a b c al be ga H D. simpl.
  pose proof (has_params_strict _ _ _ _ _ _ _ H D) as S.
  apply ppc_radicand in S; [|lra]. rewrite py_sqrt_ok by lra. simpl.
  rewrite (has_params_vol _ _ _ _ _ _ _ H) by lra. reflexivity.
Qed.
Print Assumptions C03_params_form.
Theorem C03_params_form_get_params : forall cell p,
  det cell <> 0 -> get_params cell = Ok p ->
  get_volume (VolParams (pa p) (pb p) (pc p) (palpha p) (pbeta p) (pgamma p))
  = get_volume (VolCell cell).
Proof.
  intros cell p D H.
  assert (N : FLOAT_EPS < norm (row1 cell) /\ FLOAT_EPS < norm (row2 cell) /\ FLOAT_EPS < norm (row3 cell)).
  { destruct (Rlt_dec FLOAT_EPS (norm (row1 cell))), (Rlt_dec FLOAT_EPS (norm (row2 cell))),
      (Rlt_dec FLOAT_EPS (norm (row3 cell))); auto; rewrite get_params_err in H by lra; discriminate. }
  destruct N as (N1 & N2 & N3). destruct (get_params_ok cell N1 N2 N3) as (q & E & Hq).
  rewrite E in H; injection H as <-. apply C03_params_form; auto.
Qed.
Print Assumptions C03_params_form_get_params.
Theorem C03_other_arguments : forall n, get_volume (VolOther n) = Err ValueError.
Proof. reflexivity. Qed.
Example C03_params_nonvacuous :
  has_params (mk 1 0 0 0 2 0 0 0 3) 1 2 3 90 90 90 /\ det (mk 1 0 0 0 2 0 0 0 3) <> 0.
Proof.
  assert (C : cos (90 * TORADIANS) = 0).
  { replace (90 * TORADIANS) with (PI / 2) by (unfold TORADIANS; field). apply cos_PI2. }
  unfold has_params, norm. rewrite C. vunfold.
  replace (1*1+0*0+0*0) with (1*1) by ring. replace (0*0+2*2+0*0) with (2*2) by ring.
  replace (0*0+0*0+3*3) with (3*3) by ring. rewrite !sqrt_square by lra. repeat split; lra.
Qed.

(* ======================= C04 get_angle ======================= *)
Theorem C04_defined : forall u v r,
  (1 / 2 ^ 52 < norm u /\ 1 / 2 ^ 52 < norm v -> exists x, get_angle u v r = Ok x) /\
  (~ (1 / 2 ^ 52 < norm u /\ 1 / 2 ^ 52 < norm v) -> get_angle u v r = Err ValueError).
Proof.
  intros u v r. replace (1 / 2 ^ 52) with FLOAT_EPS by (unfold FLOAT_EPS; lra). split.
  - intros [H1 H2]. rewrite get_angle_ok by auto. eauto.
  - intros H. apply get_angle_err.
    destruct (Rlt_dec FLOAT_EPS (norm u)), (Rlt_dec FLOAT_EPS (norm v)); try lra; tauto.
Qed.
Print Assumptions C04_defined.
(* The degree result t is the angle: in [0,180] and cos t |u| |v| = u.v (this determines t). *)
Theorem C04_is_the_angle : forall u v t,
  get_angle u v false = Ok t ->
  0 <= t <= 180 /\ cos (t * PI / 180) * norm u * norm v = dot u v /\
  (forall t', 0 <= t' <= 180 -> cos (t' * PI / 180) * norm u * norm v = dot u v -> t' = t).
Proof.
  intros u v t H.
  assert (N : FLOAT_EPS < norm u /\ FLOAT_EPS < norm v).
  { destruct (Rlt_dec FLOAT_EPS (norm u)), (Rlt_dec FLOAT_EPS (norm v)); auto;
      rewrite get_angle_err in H by lra; discriminate. }
  destruct N as [Nu Nv]. pose proof FLOAT_EPS_pos. rewrite get_angle_ok in H by auto.
  injection H as <-. destruct (angle_rad_spec u v) as [Rg E]; try lra.
  replace (angle_rad u v * TODEGREES * PI / 180) with (angle_rad u v)
    by (unfold TODEGREES; field; apply PI_neq0).
  split; [apply deg_range; auto|]. split; [exact E|].
  intros t' Ht' Et'. replace (t' * PI / 180) with (t' * TORADIANS) in Et' by (unfold TORADIANS; field).
  assert (A : angle_rad u v = t' * TORADIANS) by (apply angle_rad_unique; try lra; apply rad_range; auto).
  rewrite A, rad_deg. reflexivity.
Qed.
Print Assumptions C04_is_the_angle.
Theorem C04_symmetric_scale_supplement : forall u v k t,
  get_angle u v false = Ok t ->
  get_angle v u false = Ok t /\
  (0 < k -> FLOAT_EPS < norm (vscale k u) -> get_angle (vscale k u) v false = Ok t) /\
  get_angle (vneg u) v false = Ok (180 - t) /\
  get_angle u v true = Ok (t * PI / 180).
Proof.
  intros u v k t H.
  assert (N : FLOAT_EPS < norm u /\ FLOAT_EPS < norm v).
  { destruct (Rlt_dec FLOAT_EPS (norm u)), (Rlt_dec FLOAT_EPS (norm v)); auto;
      rewrite get_angle_err in H by lra; discriminate. }
  destruct N as [Nu Nv]. pose proof FLOAT_EPS_pos. rewrite get_angle_ok in H by auto.
  injection H as <-. repeat split.
  - rewrite get_angle_ok, angle_rad_sym by auto. reflexivity.
  - intros Hk Hn. rewrite get_angle_ok, angle_rad_scale by (auto; lra). reflexivity.
  - rewrite get_angle_ok by (rewrite ?norm_neg; auto). f_equal.
    rewrite angle_rad_neg by lra. rewrite Rmult_minus_distr_r, deg_PI. reflexivity.
  - rewrite get_angle_ok by auto. f_equal. unfold TODEGREES; field. apply PI_neq0.
Qed.
Print Assumptions C04_symmetric_scale_supplement.
Example C04_nonvacuous : FLOAT_EPS < norm (V3 1 0 0) /\ FLOAT_EPS < norm (V3 0 0 2).
Proof.
  unfold norm, dot, FLOAT_EPS; simpl. replace (1*1+0*0+0*0) with (1*1) by ring.
  replace (0*0+0*0+2*2) with (2*2) by ring. rewrite !sqrt_square by lra. lra.
Qed.

(* ================= C05 parallelepiped_check ================= *)
(* The answer is symmetric under simultaneous permutations (two transpositions generate all). *)
Theorem C05_permutations : forall a b c al be ga raise lt at_,
  parallelepiped_check a b c al be ga raise lt at_ = parallelepiped_check b a c be al ga raise lt at_ /\
  parallelepiped_check a b c al be ga raise lt at_ = parallelepiped_check a c b al ga be raise lt at_.
Proof.
  intros. unfold parallelepiped_check. split.
  - rewrite (ppc_perm_12 a b c). reflexivity.
  - rewrite (ppc_perm_23 a b c). reflexivity.
Qed.
Print Assumptions C05_permutations.
Theorem C05_error_mode : forall a b c al be ga lt at_,
  exists r, parallelepiped_check a b c al be ga false lt at_ = Ok r /\
    parallelepiped_check a b c al be ga true lt at_ = (if r then Ok true else Err ValueError).
Proof.
  intros. unfold parallelepiped_check. exists (ppc a b c al be ga lt at_).
  destruct (ppc a b c al be ga lt at_); split; reflexivity.
Qed.
Print Assumptions C05_error_mode.
(* Without tolerances the check is exactly realisability by a non-degenerate cell. *)
Theorem C05_realisable : forall a b c al be ga,
  parallelepiped_check a b c al be ga false 0 0 = Ok true <->
  exists cell, det cell <> 0 /\ has_params cell a b c al be ga.
Proof.
  intros. unfold parallelepiped_check. rewrite andb_false_r. split.
  - intros H. assert (P : ppc a b c al be ga 0 0 = true) by congruence.
    pose proof (ppc_radicand _ _ _ _ _ _ _ _ (Rle_refl 0) P) as Rd. apply ppc_spec in P.
    eexists. pose proof (params_cell_has a b c al be ga) as K. cbv zeta in K.
    destruct K as [K1 K2]; try lra. split; [|exact K1]. lra.
  - intros (cell & D & H). f_equal. eapply has_params_strict; eauto.
Qed.
Print Assumptions C05_realisable.
(* With any non-negative tolerances it is sound, and only ever stricter. *)
Theorem C05_tolerance_sound : forall a b c al be ga lt at_,
  0 <= lt -> 0 <= at_ ->
  parallelepiped_check a b c al be ga false lt at_ = Ok true ->
  exists cell, det cell <> 0 /\ has_params cell a b c al be ga.
Proof.
  intros a b c al be ga lt at_ Hl Ha H. apply C05_realisable.
  unfold parallelepiped_check in *. rewrite andb_false_r in *. f_equal.
  assert (P : ppc a b c al be ga lt at_ = true) by congruence.
  apply ppc_spec in P. apply ppc_spec. lra.
Qed.
Print Assumptions C05_tolerance_sound.
(* ... and a realisable set of parameters is rejected only if one of the documented
   strict inequalities holds by no more than the tolerance. *)
Theorem C05_rejection_is_near_degenerate : forall cell a b c al be ga lt at_,
  det cell <> 0 -> has_params cell a b c al be ga ->
  parallelepiped_check a b c al be ga false lt at_ = Ok false ->
  a <= lt \/ b <= lt \/ c <= lt \/
  al <= at_ \/ be <= at_ \/ ga <= at_ \/ 180 - al <= at_ \/ 180 - be <= at_ \/ 180 - ga <= at_ \/
  al + be - ga <= at_ \/ al + ga - be <= at_ \/ be + ga - al <= at_ \/ 360 - (al + be + ga) <= at_.
Proof.
  intros cell a b c al be ga lt at_ D H K.
  unfold parallelepiped_check in K. rewrite andb_false_r in K.
  assert (P : ppc a b c al be ga lt at_ <> true) by congruence.
  rewrite ppc_spec in P. lra.
Qed.
Print Assumptions C05_rejection_is_near_degenerate.
Example C05_nonvacuous : parallelepiped_check 1 2 3 80 90 100 false
    default_length_tolerance default_angle_tolerance = Ok true.
Proof.
  unfold parallelepiped_check. rewrite andb_false_r. f_equal. apply ppc_spec.
  unfold default_length_tolerance, default_angle_tolerance. lra.
Qed.

(* ================= C06 from_params / get_params ================= *)
Theorem C06_params_roundtrip : forall a b c al be ga,
  parallelepiped_check a b c al be ga false default_length_tolerance default_angle_tolerance = Ok true ->
  exists cell, from_params a b c al be ga = Ok cell /\ 0 < det cell /\
    get_params cell = Ok (Params a b c al be ga).
Proof.
  intros a b c al be ga H. unfold parallelepiped_check in H. rewrite andb_false_r in H.
  assert (P : ppc a b c al be ga default_length_tolerance default_angle_tolerance = true) by congruence.
  rewrite (from_params_ok _ _ _ _ _ _ P). eexists; split; [reflexivity|].
  destruct (ppc_cell _ _ _ _ _ _ P) as [K D]. split; [exact D|].
  apply ppc_spec in P. unfold default_length_tolerance in P.
  apply get_params_of; auto; unfold FLOAT_EPS; lra.
Qed.
Print Assumptions C06_params_roundtrip.
Theorem C06_rejected : forall a b c al be ga,
  parallelepiped_check a b c al be ga false default_length_tolerance default_angle_tolerance = Ok false ->
  from_params a b c al be ga = Err ValueError.
Proof.
  intros a b c al be ga H. unfold parallelepiped_check in H. rewrite andb_false_r in H.
  apply from_params_err. congruence.
Qed.
Print Assumptions C06_rejected.
(* In plain inequalities: lengths above 1e-8 and angles at least 1e-4 degrees away from
   a flat parallelepiped. *)
Theorem C06_accepted_iff : forall a b c al be ga,
  (exists cell, from_params a b c al be ga = Ok cell) <->
  (1 / 10 ^ 8 < a /\ 1 / 10 ^ 8 < b /\ 1 / 10 ^ 8 < c) /\
  (1 / 10 ^ 4 < al /\ 1 / 10 ^ 4 < be /\ 1 / 10 ^ 4 < ga) /\
  (al + 1 / 10 ^ 4 < be + ga /\ be + 1 / 10 ^ 4 < al + ga /\ ga + 1 / 10 ^ 4 < al + be) /\
  al + be + ga + 1 / 10 ^ 4 < 360.
Proof.
  intros. replace (1 / 10 ^ 8) with default_length_tolerance by (unfold default_length_tolerance; lra).
  replace (1 / 10 ^ 4) with default_angle_tolerance by (unfold default_angle_tolerance; lra).
  destruct (ppc a b c al be ga default_length_tolerance default_angle_tolerance) eqn:P.
  - rewrite (from_params_ok _ _ _ _ _ _ P). apply ppc_spec in P. split; [intros _; lra|eauto].
  - split; [intros [cell H]; rewrite from_params_err in H by auto; discriminate|].
    intros H. exfalso.
    assert (P' : ppc a b c al be ga default_length_tolerance default_angle_tolerance = true).
    { apply ppc_spec. unfold default_angle_tolerance, default_length_tolerance in *. lra. }
    congruence.
Qed.
Print Assumptions C06_accepted_iff.
(* The orientation documented for from_params. *)
Theorem C06_orientation : forall a b c al be ga cell,
  from_params a b c al be ga = Ok cell ->
  row1 cell = V3 a 0 0 /\ vz (row2 cell) = 0 /\ 0 < vy (row2 cell) /\ 0 < vz (row3 cell).
Proof.
  intros a b c al be ga cell H.
  destruct (ppc a b c al be ga default_length_tolerance default_angle_tolerance) eqn:P;
    [|rewrite from_params_err in H by auto; discriminate].
  rewrite (from_params_ok _ _ _ _ _ _ P) in H. injection H as <-.
  assert (T : 0 <= default_angle_tolerance) by (unfold default_angle_tolerance; lra).
  pose proof (ppc_radicand _ _ _ _ _ _ _ _ T P) as Rd.
  apply ppc_spec in P. unfold default_length_tolerance, default_angle_tolerance in P.
  assert (S : 0 < sin (ga * TORADIANS)).
  { assert (G : 0 < ga * TORADIANS < PI) by (apply rad_range_lt; lra). apply sin_gt_0; lra. }
  unfold params_cell, mk; simpl. repeat split.
  - apply Rmult_lt_0_compat; lra.
  - apply Rmult_lt_0_compat; [apply Rdiv_lt_0_compat; lra | apply sqrt_lt_R0; auto].
Qed.
Print Assumptions C06_orientation.
(* Converse: from_params (get_params cell) is the cell up to an isometry:
   same scalar products of all pairs of rows, and it is the image under an orthogonal matrix. *)
Theorem C06_cell_roundtrip : forall cell p,
  det cell <> 0 -> get_params cell = Ok p ->
  parallelepiped_check (pa p) (pb p) (pc p) (palpha p) (pbeta p) (pgamma p) false
     default_length_tolerance default_angle_tolerance = Ok true ->
  exists cell' q, from_params (pa p) (pb p) (pc p) (palpha p) (pbeta p) (pgamma p) = Ok cell' /\
    orthogonal q /\ cell' = mmul cell q.
Proof.
  intros cell p D H K.
  assert (Hp : has_params cell (pa p) (pb p) (pc p) (palpha p) (pbeta p) (pgamma p)).
  { assert (N : FLOAT_EPS < norm (row1 cell) /\ FLOAT_EPS < norm (row2 cell) /\ FLOAT_EPS < norm (row3 cell)).
    { destruct (Rlt_dec FLOAT_EPS (norm (row1 cell))), (Rlt_dec FLOAT_EPS (norm (row2 cell))),
        (Rlt_dec FLOAT_EPS (norm (row3 cell))); auto; rewrite get_params_err in H by lra; discriminate. }
    destruct N as (N1 & N2 & N3). destruct (get_params_ok cell N1 N2 N3) as (q & E & Hq).
    rewrite E in H; injection H as <-. exact Hq. }
  unfold parallelepiped_check in K. rewrite andb_false_r in K.
  assert (P : ppc (pa p) (pb p) (pc p) (palpha p) (pbeta p) (pgamma p)
              default_length_tolerance default_angle_tolerance = true) by congruence.
  destruct (ppc_cell _ _ _ _ _ _ P) as [Kc Dc].
  set (m' := params_cell _ _ _ _ _ _) in *.
  exists m', (mmul (minv_total cell) m'). split; [apply from_params_ok; auto|].
  assert (E : m' = mmul cell (mmul (minv_total cell) m')).
  { rewrite <- mmul_assoc, minv_r, mmul_id_l by auto. reflexivity. }
  split; [|exact E].
  assert (G : mmul m' (tr m') = mmul cell (tr cell)).
  { destruct Hp as (A & B & C & _ & _ & _ & E1 & E2 & E3).
    destruct Kc as (A' & B' & C' & _ & _ & _ & E1' & E2' & E3').
    assert (X : forall m, mmul m (tr m) = M3
       (V3 (norm (row1 m) * norm (row1 m)) (dot (row1 m) (row2 m)) (dot (row1 m) (row3 m)))
       (V3 (dot (row1 m) (row2 m)) (norm (row2 m) * norm (row2 m)) (dot (row2 m) (row3 m)))
       (V3 (dot (row1 m) (row3 m)) (dot (row2 m) (row3 m)) (norm (row3 m) * norm (row3 m)))).
    { intros m. rewrite !norm_sqr. vring. }
    rewrite (X m'), (X cell). rewrite E1, E2, E3, E1', E2', E3', A, B, C, A', B', C'. reflexivity. }
  unfold orthogonal. set (q := mmul (minv_total cell) m') in *. rewrite E in G.
  rewrite tr_mmul, mmul_assoc, <- (mmul_assoc q) in G.
  apply mmul_cancel_l in G; auto. rewrite <- (mmul_id_l (tr cell)) in G at 2.
  apply mmul_cancel_r in G; [exact G | rewrite det_tr; auto].
Qed.
Print Assumptions C06_cell_roundtrip.
Example C06_nonvacuous : exists p,
  det (mk 1 0 0 0 2 0 0 0 3) <> 0 /\ get_params (mk 1 0 0 0 2 0 0 0 3) = Ok p /\
  parallelepiped_check (pa p) (pb p) (pc p) (palpha p) (pbeta p) (pgamma p) false
     default_length_tolerance default_angle_tolerance = Ok true.
Proof.
  destruct C03_params_nonvacuous as [H D]. exists (Params 1 2 3 90 90 90). split; [exact D|]. split.
  - apply get_params_of; auto; unfold FLOAT_EPS; lra.
  - unfold parallelepiped_check. rewrite andb_false_r. f_equal. apply ppc_spec. simpl.
    unfold default_length_tolerance, default_angle_tolerance. lra.
Qed.

(* ================= C07 get_spherical ================= *)
(* For a zero line perpendicular to the polar axis: documented ranges, and exact
   reconstruction away from the two poles. *)
Theorem C07_ranges : forall v p z,
  v <> vzero -> p <> vzero -> z <> vzero -> dot p z = 0 ->
  exists polar azimuthal, get_spherical v true p z = Ok (norm v, polar, azimuthal) /\
    0 <= polar <= 180 /\ 0 <= azimuthal < 360.
Proof.
  intros v p z Hv Hp Hz Hpz. destruct (spherical_eval v p z Hv Hp Hz Hpz) as (t & a & _ & E & Rt & Ra & _).
  exists (t * TODEGREES), (a * TODEGREES). split; [exact E|]. split; [apply deg_range; auto|].
  pose proof TODEGREES_pos. split; [nra|]. replace 360 with (2 * PI * TODEGREES) by (unfold TODEGREES; field; apply PI_neq0).
  apply Rmult_lt_compat_r; lra.
Qed.
Print Assumptions C07_ranges.
Definition near1 (x y : R) : Prop := Rabs (x - y) <= 1 / 10 ^ 8 + Rabs y / 10 ^ 5.
Definition near (u w : vec) : Prop := near1 (vx u) (vx w) /\ near1 (vy u) (vy w) /\ near1 (vz u) (vz w).
Lemma near1_spec x y : close1 x y = true <-> near1 x y.
Proof.
  unfold close1, near1. rewrite Rleb_true.
  replace (1 / 10 ^ 8 + Rabs y / 10 ^ 5) with (/ 100000000 + / 100000 * Rabs y) by lra. reflexivity.
Qed.
Lemma near_spec u w : allclose u w = true <-> near u w.
Proof. unfold allclose, near. rewrite !andb_true_iff, !near1_spec. tauto. Qed.
Lemma near_not u w : allclose u w = false <-> ~ near u w.
Proof. rewrite <- near_spec. destruct (allclose u w); split; congruence. Qed.
Theorem C07_reconstruct : forall v p z r t a,
  v <> vzero -> p <> vzero -> z <> vzero -> dot p z = 0 ->
  get_spherical v false p z = Ok (r, t, a) ->
  ~ near (hat v) (hat p) -> ~ near (hat v) (vneg (hat p)) ->
  v = vscale r (vadd (vscale (cos t) (hat p))
        (vscale (sin t) (vadd (vscale (cos a) (hat z)) (vscale (sin a) (cross (hat p) (hat z)))))).
Proof.
  intros v p z r t a Hv Hp Hz Hpz E C1 C2. rewrite <- near_not in C1, C2.
  destruct (spherical_eval v p z Hv Hp Hz Hpz) as (t' & a' & E' & _ & _ & _ & [(K & _)|[(_ & K & _)|(_ & _ & K)]]);
    try congruence.
  rewrite E' in E. injection E as <- <- <-. exact K.
Qed.
Print Assumptions C07_reconstruct.
(* Near a pole the pole itself is reported, with azimuth 0 or 180 degrees as documented. *)
Theorem C07_poles : forall v p z,
  v <> vzero -> p <> vzero -> z <> vzero -> dot p z = 0 ->
  (near (hat v) (hat p) -> get_spherical v true p z = Ok (norm v, 0, 0)) /\
  (~ near (hat v) (hat p) -> near (hat v) (vneg (hat p)) ->
     get_spherical v true p z = Ok (norm v, 180, 180)).
Proof.
  intros v p z Hv Hp Hz Hpz. rewrite <- near_not, <- !near_spec.
  destruct (spherical_eval v p z Hv Hp Hz Hpz) as (t & a & _ & E & _ & _ & K). split.
  - intros C. destruct K as [(_ & -> & ->)|[(K & _)|(K & _)]]; try congruence.
    rewrite E. rewrite Rmult_0_l. reflexivity.
  - intros C1 C2. destruct K as [(K & _)|[(_ & _ & -> & ->)|(_ & K & _)]]; try congruence.
    rewrite E, deg_PI. reflexivity.
Qed.
Print Assumptions C07_poles.
Example C07_nonvacuous : V3 1 2 3 <> vzero /\ V3 0 0 1 <> vzero /\ V3 1 0 0 <> vzero /\
  dot (V3 0 0 1) (V3 1 0 0) = 0.
Proof. repeat split; try (intros F; injection F; lra). vring. Qed.
(* If only the polar axis is changed, the default zero line can be parallel to it, and
   the documented meaning is lost: different vectors get equal coordinates. *)
Theorem C07_parallel_zero_line_refuted : exists v1 v2 p out,
  v1 <> v2 /\ get_spherical v1 true p (V3 1 0 0) = Ok out /\ get_spherical v2 true p (V3 1 0 0) = Ok out.
Proof.
  assert (N : forall v, dot v v = 1 -> norm v = 1) by (intros v H; unfold norm; rewrite H; apply sqrt_1).
  assert (G : forall v, dot v v = 1 -> vx v = 0 -> get_spherical v true (V3 1 0 0) (V3 1 0 0)
              = Ok (1, acos 0 * TODEGREES, acos 0 * TODEGREES)).
  { intros v H Z.
    assert (NZ : v <> vzero) by (intros ->; unfold vzero, dot in H; simpl in H; lra).
    assert (PZ : V3 1 0 0 <> vzero) by (intros F; injection F; lra).
    unfold get_spherical. rewrite !(normalize_ok _ PZ), (normalize_ok _ NZ). cbn [bind].
    rewrite (N v H), (N (V3 1 0 0)) by vring.
    destruct v as [x y w]; simpl in Z; subst x.
    replace (vscale (/ 1) (V3 1 0 0)) with (V3 1 0 0) by (vunfold; vcomp; field).
    replace (vscale (/ 1) (V3 0 y w)) with (V3 0 y w) by (vunfold; vcomp; field).
    assert (C : forall s, s = 1 \/ s = -1 -> close1 0 s = false).
    { intros s Hs. unfold close1. apply Rleb_false.
      destruct Hs as [-> | ->]; unfold Rabs; repeat destruct (Rcase_abs _); lra. }
    unfold allclose, vneg. cbn [vx]. rewrite (C 1), ?(C (-1)), ?(C (- (1))) by (auto; right; lra). simpl andb. cbv iota.
    assert (D : dot (V3 0 y w) (V3 1 0 0) = 0) by (unfold dot; simpl; ring).
    rewrite D. replace (vsub (V3 0 y w) (vscale 0 (V3 1 0 0))) with (V3 0 y w) by (vunfold; vcomp; ring).
    rewrite (normalize_ok _ NZ), (N _ H). cbn [bind].
    replace (vscale (/ 1) (V3 0 y w)) with (V3 0 y w) by (vunfold; vcomp; field).
    rewrite D, clip_id by lra.
    rewrite (proj2 (Rleb_true 0 _)); [reflexivity|].
    replace (det (M3 (V3 1 0 0) (V3 1 0 0) (V3 0 y w))) with 0 by (vunfold; ring). lra. }
  exists (V3 0 1 0), (V3 0 0 1), (V3 1 0 0), (1, acos 0 * TODEGREES, acos 0 * TODEGREES).
  repeat split.
  - intros F; injection F; lra.
  - apply G; [vring|reflexivity].
  - apply G; [vring|reflexivity].
Qed.
Print Assumptions C07_parallel_zero_line_refuted.

(* ================= C08 get_reciprocal ================= *)
Theorem C08_duality : forall cell r,
  get_reciprocal cell = Ok r ->
  dot (row1 r) (row1 cell) = 2 * PI /\ dot (row1 r) (row2 cell) = 0 /\ dot (row1 r) (row3 cell) = 0 /\
  dot (row2 r) (row1 cell) = 0 /\ dot (row2 r) (row2 cell) = 2 * PI /\ dot (row2 r) (row3 cell) = 0 /\
  dot (row3 r) (row1 cell) = 0 /\ dot (row3 r) (row2 cell) = 0 /\ dot (row3 r) (row3 cell) = 2 * PI.
Proof.
  intros cell r H. apply reciprocal_dual in H.
  assert (X : mmul r (tr cell) = M3
    (V3 (dot (row1 r) (row1 cell)) (dot (row1 r) (row2 cell)) (dot (row1 r) (row3 cell)))
    (V3 (dot (row2 r) (row1 cell)) (dot (row2 r) (row2 cell)) (dot (row2 r) (row3 cell)))
    (V3 (dot (row3 r) (row1 cell)) (dot (row3 r) (row2 cell)) (dot (row3 r) (row3 cell)))) by vring.
  rewrite X in H. unfold mscale, mid, mk, vscale in H; simpl in H. injection H; intros.
  repeat split; lra.
Qed.
Print Assumptions C08_duality.
Theorem C08_defined : forall cell,
  (det cell <> 0 -> exists r, get_reciprocal cell = Ok r) /\
  (det cell = 0 -> get_reciprocal cell = Err LinAlgError).
Proof.
  intros; split; intros H; [rewrite get_reciprocal_ok by auto; eauto | apply get_reciprocal_err; auto].
Qed.
Print Assumptions C08_defined.
Theorem C08_involution_volume : forall cell r,
  get_reciprocal cell = Ok r ->
  get_reciprocal r = Ok cell /\ det r * det cell = (2 * PI) ^ 3.
Proof.
  intros cell r H. split; [apply reciprocal_involution; auto|].
  rewrite (reciprocal_det _ _ H). ring.
Qed.
Print Assumptions C08_involution_volume.
(* Duality determines the reciprocal cell: nothing else satisfies it. *)
Theorem C08_unique : forall cell r, det cell <> 0 ->
  mmul r (tr cell) = mscale (2 * PI) mid -> get_reciprocal cell = Ok r.
Proof. exact reciprocal_unique. Qed.
Print Assumptions C08_unique.
Example C08_nonvacuous : det (mk 1 1 0 0 1 0 0 0 1) <> 0.
Proof. vunfold; lra. Qed.

(* ================= C09 get_transformation_matrix ================= *)
Theorem C09_correct_unique : forall original transformed m,
  get_transformation_matrix original transformed = Ok m ->
  mmul (tr m) original = transformed /\
  (forall m', mmul (tr m') original = transformed -> m' = m).
Proof.
  intros o t m H. split; [eapply transformation_spec; eauto | intros; eapply transformation_unique; eauto].
Qed.
Print Assumptions C09_correct_unique.
Theorem C09_defined : forall original transformed,
  (det original <> 0 -> exists m, get_transformation_matrix original transformed = Ok m) /\
  (det original = 0 -> get_transformation_matrix original transformed = Err LinAlgError).
Proof. exact transformation_defined. Qed.
Print Assumptions C09_defined.
(* Positions transformed contravariantly keep their Cartesian coordinates. *)
Theorem C09_positions : forall original transformed m x y,
  get_transformation_matrix original transformed = Ok m ->
  y = matv (minv_total m) x -> det transformed <> 0 ->
  vmat y transformed = vmat x original.
Proof.
  intros o t m x y H -> D. pose proof (transformation_spec _ _ _ H) as S.
  assert (Dm : det m <> 0).
  { rewrite <- S, det_mmul, det_tr in D. intros E; rewrite E in D; lra. }
  rewrite <- S. assert (E : matv (minv_total m) x = vmat x (tr (minv_total m))).
  { generalize (minv_total m). vring. }
  rewrite E, vmat_mmul, <- mmul_assoc, <- tr_mmul, minv_r by auto.
  f_equal. assert (T : tr mid = mid) by vring. rewrite T, mmul_id_l. reflexivity.
Qed.
Print Assumptions C09_positions.
Example C09_nonvacuous : det (mk 2 0 0 0 3 0 1 0 1) <> 0. Proof. vunfold; lra. Qed.

(* ================= C10 get_scalar_products ================= *)
Theorem C10_params : forall cell p,
  get_params cell = Ok p ->
  get_scalar_products cell =
    (pb p * pc p * cos (palpha p * PI / 180),
     pa p * pc p * cos (pbeta p * PI / 180),
     pa p * pb p * cos (pgamma p * PI / 180)).
Proof.
  intros cell p H.
  assert (N : FLOAT_EPS < norm (row1 cell) /\ FLOAT_EPS < norm (row2 cell) /\ FLOAT_EPS < norm (row3 cell)).
  { destruct (Rlt_dec FLOAT_EPS (norm (row1 cell))), (Rlt_dec FLOAT_EPS (norm (row2 cell))),
      (Rlt_dec FLOAT_EPS (norm (row3 cell))); auto; rewrite get_params_err in H by lra; discriminate. }
  destruct N as (N1 & N2 & N3). destruct (get_params_ok cell N1 N2 N3) as (q & E & Hq).
  rewrite E in H; injection H as <-. destruct Hq as (_ & _ & _ & _ & _ & _ & E1 & E2 & E3).
  assert (T : forall x, x * PI / 180 = x * TORADIANS) by (intros; unfold TORADIANS; field).
  unfold get_scalar_products. rewrite !T, E1, E2, E3. reflexivity.
Qed.
Print Assumptions C10_params.
Theorem C10_isometry_invariant : forall cell q, orthogonal q ->
  get_scalar_products (mmul cell q) = get_scalar_products cell /\
  get_params (mmul cell q) = get_params cell.
Proof.
  intros cell q H. split.
  - unfold get_scalar_products, mmul; simpl. rewrite !dot_as_vmat by auto. reflexivity.
  - assert (A : forall u v r, get_angle (vmat u q) (vmat v q) r = get_angle u v r).
    { intros u v r. unfold get_angle. rewrite !norm_vmat, !dot_scale_l, !dot_scale_r, dot_as_vmat by auto.
      reflexivity. }
    unfold get_params, mmul; simpl. rewrite !A, !norm_vmat by auto. reflexivity.
Qed.
Print Assumptions C10_isometry_invariant.
Example C10_nonvacuous : orthogonal (mk 0 1 0 (-1) 0 0 0 0 1).
Proof. unfold orthogonal. vunfold. vcomp; ring. Qed.
