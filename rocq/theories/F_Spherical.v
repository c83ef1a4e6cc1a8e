(* F_Spherical.v : proofs about get_spherical *)
From Verif Require Import Base M_Numerical M_Geometry F_Geometry.
Open Scope R_scope.

Lemma normalize_ok v : v <> vzero -> normalize v = Ok (vscale (/ norm v) v).
Proof.
  intros H. unfold normalize. rewrite (proj2 (Reqb_false _ _)); [reflexivity|].
  pose proof (norm_pos v H). lra.
Qed.
Lemma normalize_err : normalize vzero = Err NotANumber.
Proof.
  unfold normalize. rewrite (proj2 (Reqb_true _ _)); [reflexivity|]. apply norm_zero_iff; reflexivity.
Qed.
Lemma unit_dot v : v <> vzero -> dot (vscale (/ norm v) v) (vscale (/ norm v) v) = 1.
Proof.
  intros H. pose proof (norm_pos v H). rewrite dot_scale_l, dot_scale_r, <- norm_sqr. field; lra.
Qed.

(* Orthonormal frame (p, z, p x z). *)
Lemma frame_expand p z w : dot p p = 1 -> dot z z = 1 -> dot p z = 0 ->
  w = vadd (vscale (dot w p) p)
           (vadd (vscale (dot w z) z) (vscale (dot w (cross p z)) (cross p z))).
Proof.
  intros Pp Zz Pz. set (M := M3 p z (cross p z)).
  assert (O : mmul M (tr M) = mid).
  { transitivity (M3 (V3 (dot p p) (dot p z) (dot p (cross p z)))
                     (V3 (dot p z) (dot z z) (dot z (cross p z)))
                     (V3 (dot p (cross p z)) (dot z (cross p z))
                         (dot (cross p z) (cross p z)))).
    { unfold M. vring. }
    assert (E1 : dot p (cross p z) = 0) by vring.
    assert (E2 : dot z (cross p z) = 0) by vring.
    assert (E3 : dot (cross p z) (cross p z) = dot p p * dot z z - dot p z * dot p z) by vring.
    rewrite E1, E2, E3, Pp, Zz, Pz. unfold mid, mk. vcomp; ring. }
  assert (D : det M <> 0).
  { apply (f_equal det) in O. rewrite det_mmul, det_id in O. intros E. rewrite E in O. lra. }
  assert (O2 : mmul (tr M) M = mid).
  { rewrite (minv_unique M (tr M) D O). apply minv_l; auto. }
  rewrite <- (vmat_id w) at 1. rewrite <- O2, <- vmat_mmul. unfold M. vring.
Qed.

Definition spherical_point (r polar azimuthal : R) (p z : vec) : vec :=
  vscale r (vadd (vscale (cos polar) p)
    (vscale (sin polar) (vadd (vscale (cos azimuthal) z) (vscale (sin azimuthal) (cross p z))))).

Lemma close1_refl x y : x = y -> close1 x y = true.
Proof.
  intros ->. unfold close1. apply Rleb_true. replace (y - y) with 0 by ring. rewrite Rabs_R0.
  pose proof (Rabs_pos y). lra.
Qed.
Lemma allclose_refl u v : u = v -> allclose u v = true.
Proof. intros ->. unfold allclose. rewrite !close1_refl; reflexivity. Qed.

Lemma dot_vsub_self u p : dot (vsub u p) (vsub u p) = dot u u - 2 * dot u p + dot p p.
Proof. vring. Qed.
Lemma dot_vadd_self u p : dot (vadd u p) (vadd u p) = dot u u + 2 * dot u p + dot p p.
Proof. vring. Qed.
Lemma vsub_zero u p : vsub u p = vzero -> u = p.
Proof. intros Z0. vdestruct; vunfold. injection Z0; intros. f_equal; lra. Qed.
Lemma vadd_zero u p : vadd u p = vzero -> u = vneg p.
Proof. intros Z0. vdestruct; vunfold. injection Z0; intros. f_equal; lra. Qed.
Lemma w_dot_gen u p : dot (vsub u (vscale (dot u p) p)) (vsub u (vscale (dot u p) p)) =
  dot u u - 2 * (dot u p * dot u p) + dot u p * dot u p * dot p p.
Proof. vring. Qed.
Lemma dot_zero_self : dot vzero vzero = 0.
Proof. vring. Qed.
Lemma wp_gen u p : dot (vsub u (vscale (dot u p) p)) p = dot u p - dot u p * dot p p.
Proof. vring. Qed.
Lemma w_exp_gen w p z q : dot w (vadd (vscale 0 p)
     (vadd (vscale (dot w z) z) (vscale (dot w q) q))) = dot w z * dot w z + dot w q * dot w q.
Proof. vring. Qed.
Lemma det_cross_gen p z w : det (M3 p z w) = dot w (cross p z).
Proof. vring. Qed.
Lemma vadd_scale0 p x : vadd (vscale 0 p) x = x.
Proof. vring. Qed.
Lemma scale_unscale n w : n <> 0 -> vscale n (vscale (/ n) w) = w.
Proof. intros H. destruct w; vunfold; vcomp; field; auto. Qed.
Lemma split_gen u p k : u = vadd (vscale k p) (vsub u (vscale k p)).
Proof. vring. Qed.

Section Generic.
Variables u p z : vec.
Hypothesis Uu : dot u u = 1.
Hypothesis Pp : dot p p = 1.
Hypothesis Zz : dot z z = 1.
Hypothesis Pz : dot p z = 0.
Hypothesis N1 : u <> p.
Hypothesis N2 : u <> vneg p.

Let w := vsub u (vscale (dot u p) p).

Lemma up_bound : -1 < dot u p < 1.
Proof.
  assert (E1 : dot (vsub u p) (vsub u p) = 2 - 2 * dot u p) by (rewrite dot_vsub_self; lra).
  assert (E2 : dot (vadd u p) (vadd u p) = 2 + 2 * dot u p) by (rewrite dot_vadd_self; lra).
  pose proof (dot_self_nonneg (vsub u p)) as A. pose proof (dot_self_nonneg (vadd u p)) as B.
  split.
  - apply Rnot_le_lt; intros L. apply N2, vadd_zero, dot_self_zero. lra.
  - apply Rnot_le_lt; intros L. apply N1, vsub_zero, dot_self_zero. lra.
Qed.
Lemma w_dot : dot w w = 1 - dot u p * dot u p.
Proof.
  unfold w. rewrite w_dot_gen, Uu, Pp; ring.
Qed.
Lemma w_nonzero : w <> vzero.
Proof.
  intros E. pose proof w_dot as D. rewrite E in D.
  rewrite dot_zero_self in D. pose proof up_bound. nra.
Qed.
Lemma w_norm : norm w = sin (acos (dot u p)).
Proof.
  pose proof up_bound. rewrite sin_acos by lra. unfold norm. rewrite w_dot. reflexivity.
Qed.

Let w' := vscale (/ norm w) w.
Lemma w'_unit : dot w' w' = 1.
Proof. apply unit_dot, w_nonzero. Qed.
Lemma w'_p : dot w' p = 0.
Proof.
  unfold w'. rewrite dot_scale_l. unfold w.
  rewrite wp_gen, Pp; ring.
Qed.
Lemma w'_sum : dot w' z * dot w' z + dot w' (cross p z) * dot w' (cross p z) = 1.
Proof.
  pose proof (frame_expand p z w' Pp Zz Pz) as E. rewrite w'_p in E.
  assert (F : dot w' w' = dot w' (vadd (vscale 0 p)
     (vadd (vscale (dot w' z) z) (vscale (dot w' (cross p z)) (cross p z))))) by (rewrite <- E; auto).
  rewrite w'_unit in F. rewrite F. symmetry. apply w_exp_gen.
Qed.
Lemma w'z_bound : -1 <= dot w' z <= 1.
Proof. pose proof w'_sum. nra. Qed.

Definition az : R :=
  if Rleb 0 (det (M3 p z w')) then acos (dot w' z) else 2 * PI - acos (dot w' z).

Lemma det_cross : det (M3 p z w') = dot w' (cross p z).
Proof. apply det_cross_gen. Qed.

Lemma az_range : 0 <= az < 2 * PI.
Proof.
  pose proof PI_pos as P. unfold az. destruct (Rleb_spec 0 (det (M3 p z w'))) as [L|L].
  - pose proof (acos_bound (dot w' z)). lra.
  - rewrite det_cross in L. apply Rnot_le_lt in L.
    pose proof w'_sum as S. pose proof w'z_bound as B.
    assert (S1 : dot w' z < 1) by nra. assert (S2 : -1 < dot w' z) by nra.
    pose proof (acos_bound_lt (dot w' z) (conj S2 S1)). lra.
Qed.
Lemma az_cos : cos az = dot w' z.
Proof.
  pose proof w'z_bound as B. unfold az. destruct (Rleb_spec 0 (det (M3 p z w'))).
  - apply cos_acos; auto.
  - replace (2 * PI - acos (dot w' z)) with (- acos (dot w' z) + 2 * INR 1 * PI) by (simpl; ring).
    rewrite cos_period, cos_neg. apply cos_acos; auto.
Qed.
Lemma az_sin : sin az = dot w' (cross p z).
Proof.
  pose proof w'z_bound as B. pose proof w'_sum as S. unfold az.
  assert (Q : sqrt (1 - Rsqr (dot w' z)) = Rabs (dot w' (cross p z))).
  { rewrite <- sqrt_Rsqr_abs. f_equal. unfold Rsqr. lra. }
  destruct (Rleb_spec 0 (det (M3 p z w'))) as [L|L]; rewrite det_cross in L.
  - rewrite sin_acos, Q, Rabs_pos_eq by auto. reflexivity.
  - apply Rnot_le_lt in L.
    replace (2 * PI - acos (dot w' z)) with (- acos (dot w' z) + 2 * INR 1 * PI) by (simpl; ring).
    rewrite sin_period, sin_neg, sin_acos, Q, Rabs_left by auto. ring.
Qed.
Lemma generic_reconstruct :
  u = vadd (vscale (cos (acos (dot u p))) p)
       (vscale (sin (acos (dot u p))) (vadd (vscale (cos az) z) (vscale (sin az) (cross p z)))).
Proof.
  pose proof up_bound as U. rewrite cos_acos by lra. rewrite <- w_norm, az_cos, az_sin.
  pose proof (frame_expand p z w' Pp Zz Pz) as E. rewrite w'_p in E.
  assert (E2 : w' = vadd (vscale (dot w' z) z) (vscale (dot w' (cross p z)) (cross p z))).
  { rewrite E at 1. apply vadd_scale0. }
  rewrite <- E2. assert (W : vscale (norm w) w' = w).
  { unfold w'. pose proof (norm_pos w w_nonzero) as NP. apply scale_unscale. lra. }
  rewrite W. apply split_gen.
Qed.
End Generic.

Lemma unit_bound u p : dot u u = 1 -> dot p p = 1 -> -1 <= dot u p <= 1.
Proof. intros A B. pose proof (cauchy_schwarz_sqr u p) as C. rewrite A, B in C. nra. Qed.

(* unit vector of v *)
Definition hat (v : vec) : vec := vscale (/ norm v) v.
Lemma hat_unit v : v <> vzero -> dot (hat v) (hat v) = 1.
Proof. apply unit_dot. Qed.
Lemma hat_perp u v : dot u v = 0 -> dot (hat u) (hat v) = 0.
Proof. intros H. unfold hat. rewrite dot_scale_l, dot_scale_r, H. ring. Qed.
Lemma hat_scale v : v <> vzero -> vscale (norm v) (hat v) = v.
Proof.
  intros H. pose proof (norm_pos v H). unfold hat. generalize dependent (norm v); intros n Hn.
  destruct v; vunfold; vcomp; field; lra.
Qed.

(* full evaluation, radians *)
Lemma spherical_eval v p0 z0 : v <> vzero -> p0 <> vzero -> z0 <> vzero -> dot p0 z0 = 0 ->
  let u := hat v in let p := hat p0 in let z := hat z0 in
  exists t a, get_spherical v false p0 z0 = Ok (norm v, t, a) /\
    get_spherical v true p0 z0 = Ok (norm v, t * TODEGREES, a * TODEGREES) /\
    0 <= t <= PI /\ 0 <= a < 2 * PI /\
    ((allclose u p = true /\ t = 0 /\ a = 0) \/
     (allclose u p = false /\ allclose u (vneg p) = true /\ t = PI /\ a = PI) \/
     (allclose u p = false /\ allclose u (vneg p) = false /\
      v = spherical_point (norm v) t a p z)).
Proof.
  intros Hv Hp Hz Hpz u p z. unfold get_spherical.
  rewrite (normalize_ok p0 Hp), (normalize_ok z0 Hz), (normalize_ok v Hv). cbn [bind].
  fold (hat p0) (hat z0) (hat v). fold u p z. pose proof PI_pos as P.
  destruct (allclose u p) eqn:C1.
  { exists 0, 0. cbn [bind]. repeat split; try lra. all: left; auto. }
  destruct (allclose u (vneg p)) eqn:C2.
  { exists PI, PI. cbn [bind]. repeat split; try lra. all: right; left; auto. }
  assert (N1 : u <> p) by (intros E; rewrite allclose_refl in C1; auto; discriminate).
  assert (N2 : u <> vneg p) by (intros E; rewrite allclose_refl in C2; auto; discriminate).
  assert (Uu : dot u u = 1) by (apply hat_unit; auto).
  assert (Pp : dot p p = 1) by (apply hat_unit; auto).
  assert (Zz : dot z z = 1) by (apply hat_unit; auto).
  assert (Pz : dot p z = 0) by (apply hat_perp; auto).
  pose proof (w_nonzero u p Uu Pp N1 N2) as W.
  rewrite (normalize_ok _ W). cbn [bind].
  rewrite (clip_id (dot u p)) by (apply unit_bound; auto).
  rewrite clip_id by (apply w'z_bound; auto).
  exists (acos (dot u p)), (az u p z).
  assert (E : (if Rleb 0 (det (M3 p z (vscale (/ norm (vsub u (vscale (dot u p) p))) (vsub u (vscale (dot u p) p)))))
     then Ok (acos (dot u p), acos (dot (vscale (/ norm (vsub u (vscale (dot u p) p))) (vsub u (vscale (dot u p) p))) z))
     else Ok (acos (dot u p), 2 * PI - acos (dot (vscale (/ norm (vsub u (vscale (dot u p) p))) (vsub u (vscale (dot u p) p))) z)))
     = Ok (acos (dot u p), az u p z)).
  { unfold az. destruct (Rleb 0 _); reflexivity. }
  rewrite E. cbn [bind]. pose proof (acos_bound (dot u p)).
  pose proof (az_range u p z Uu Pp Zz Pz N1 N2).
  repeat split; try lra. right; right. repeat split; auto.
  unfold spherical_point. rewrite <- (generic_reconstruct u p z Uu Pp Zz Pz N1 N2).
  symmetry. apply hat_scale; auto.
Qed.
