(* F_LepageEx.v : evaluation of the LePage model on integer cells (used for the witnesses) *)
From Verif Require Import Base M_Numerical M_Geometry M_Cell M_Niggli M_Voronoi F_Voronoi F_Geometry M_Lepage F_Lepage.
Open Scope R_scope.

Lemma tan_2deg : PI / 90 < atan (1 / 20).
Proof.
  pose proof PI_4 as P4. pose proof PI_RGT_0 as P0. set (x := PI / 90).
  assert (X : 0 < x <= 4 / 90) by (unfold x; lra).
  assert (S1 : sin x < x) by (apply sin_lt_x; lra).
  assert (S0 : 0 < sin x) by (apply sin_gt_0; unfold x in *; lra).
  assert (S2 : sin (x / 2) < x / 2) by (apply sin_lt_x; lra).
  assert (S3 : 0 < sin (x / 2)) by (apply sin_gt_0; unfold x in *; lra).
  assert (C : cos x = 1 - 2 * sin (x / 2) * sin (x / 2)).
  { rewrite <- cos_2a_sin. f_equal. field. }
  assert (C2 : 99 / 100 < cos x) by (rewrite C; nra).
  assert (T : tan x < 1 / 20).
  { unfold tan. apply (Rmult_lt_reg_r (cos x)); [lra|]. unfold Rdiv.
    rewrite Rmult_assoc, Rinv_l by lra. lra. }
  rewrite <- (atan_tan x) by (unfold x in *; lra). apply atan_increasing. exact T.
Qed.

(* the cell in integers, the adjugate rows are the reciprocal vectors times det/(2 pi) *)
Definition ztimes (u : zvec) (m : zmat) : zvec :=
  Zv (zx u * z11 m + zy u * z21 m + zz u * z31 m) (zx u * z12 m + zy u * z22 m + zz u * z32 m)
     (zx u * z13 m + zy u * z23 m + zz u * z33 m).
Definition zcross (u v : zvec) : zvec :=
  Zv (zy u * zz v - zz u * zy v) (zz u * zx v - zx u * zz v) (zx u * zy v - zy u * zx v).
Definition zrow1 m := Zv (z11 m) (z12 m) (z13 m).
Definition zrow2 m := Zv (z21 m) (z22 m) (z23 m).
Definition zrow3 m := Zv (z31 m) (z32 m) (z33 m).
Definition zrec (m : zmat) : zmat :=
  let a := zcross (zrow2 m) (zrow3 m) in let b := zcross (zrow3 m) (zrow1 m) in
  let c := zcross (zrow1 m) (zrow2 m) in
  Zm (zx a) (zy a) (zz a) (zx b) (zy b) (zz b) (zx c) (zy c) (zz c).
Definition zeven (p : zvec * zvec) : bool := (Z.abs (zdot (fst p) (snd p)) =? 2)%Z.
Definition zperp (m : zmat) (p : zvec * zvec) : bool :=
  zvec_eqb (zcross (ztimes (fst p) m) (ztimes (snd p) (zrec m))) (Zv 0 0 0).
Definition far (m : zmat) (p : zvec * zvec) : bool :=
  let t := ztimes (fst p) m in let s := ztimes (snd p) (zrec m) in
  (zdot t s * zdot t s <=? 400 * zdot (zcross t s) (zcross t s))%Z.
Definition separated (m : zmat) : bool :=
  forallb (fun p => negb (zeven p) || zperp m p || far m p) pairs22.

Lemma ofZv_times u m : vmat (ofZv u) (ofZ m) = ofZv (ztimes u m).
Proof.
  destruct u, m. unfold ofZv, ztimes, ofZ, mk; cbn. vunfold. rewrite !plus_IZR, !mult_IZR.
  f_equal; ring.
Qed.
Lemma ofZv_cross u v : cross (ofZv u) (ofZv v) = ofZv (zcross u v).
Proof. destruct u, v. unfold ofZv, zcross; cbn. vunfold. rewrite !minus_IZR, !mult_IZR. reflexivity. Qed.
Lemma zrec_adj m : mmul (ofZ (zrec m)) (tr (ofZ m)) = mscale (det (ofZ m)) mid.
Proof.
  destruct m as [a b c d e f g h i]. unfold zrec, zcross, zrow1, zrow2, zrow3, ofZ, mk.
  cbn [z11 z12 z13 z21 z22 z23 z31 z32 z33 Base.zx Base.zy Base.zz].
  rewrite !minus_IZR, !mult_IZR. vunfold. vcomp; ring.
Qed.
Lemma zrec_recip m : det (ofZ m) <> 0 ->
  get_reciprocal (ofZ m) = Ok (mscale (2 * PI / det (ofZ m)) (ofZ (zrec m))).
Proof.
  intros D. apply reciprocal_unique; [exact D|].
  assert (E : mmul (ofZ (zrec m)) (tr (ofZ m)) = mscale (det (ofZ m)) mid).
  { apply zrec_adj. }
  assert (E2 : mmul (mscale (2 * PI / det (ofZ m)) (ofZ (zrec m))) (tr (ofZ m))
               = mscale (2 * PI / det (ofZ m)) (mmul (ofZ (zrec m)) (tr (ofZ m)))).
  { generalize (2 * PI / det (ofZ m)). generalize (ofZ (zrec m)). generalize (ofZ m). clear. vring. }
  rewrite E2, E. clear E E2. revert D. generalize (det (ofZ m)). intros d D.
  unfold mscale, mid, mk, vscale; cbn [row1 row2 row3 vx vy vz]. vcomp; field; auto.
Qed.

Lemma vmat_mscale k u m : vmat u (mscale k m) = vscale k (vmat u m).
Proof. vring. Qed.
Lemma cross_scale_r k u v : cross u (vscale k v) = vscale k (cross u v).
Proof. vring. Qed.

Lemma dot_vmat2 u v A B : dot (vmat u A) (vmat v B) = dot (vmat v (mmul B (tr A))) u.
Proof. vring. Qed.
Lemma dot_vmat_mscale u v d : dot (vmat v (mscale d mid)) u = d * dot u v.
Proof. vring. Qed.
Lemma scale_zero v : vscale 0 (vscale 2 v) = vscale 0 v.
Proof. vring. Qed.
Lemma scale_half n v : n <> 0 -> vscale (/ (2 * n)) (vscale 2 v) = vscale (/ n) v.
Proof. intros. destruct v. vunfold. vcomp; field; auto. Qed.

Section Ex.
  Variable m : zmat.
  Let D := det (ofZ m).
  Hypothesis HD : D <> 0.
  Let r := mscale (2 * PI / D) (ofZ (zrec m)).

  Lemma ratio U h : zdot (ztimes U m) (ztimes h (zrec m)) <> 0%Z ->
    axis_delta (ofZ m) r U h =
    atan (norm (ofZv (zcross (ztimes U m) (ztimes h (zrec m)))) /
          Rabs (IZR (zdot (ztimes U m) (ztimes h (zrec m))))) * TODEGREES.
  Proof.
    intros NZ. unfold axis_delta, r. rewrite vmat_mscale, cross_scale_r, dot_scale_r, !ofZv_times, ofZv_cross, ofZv_dot.
    rewrite norm_scale, Rabs_mult. do 2 f_equal. assert (K : 2 * PI / D <> 0).
    { unfold Rdiv. pose proof PI_RGT_0. apply Rmult_integral_contrapositive_currified; [lra|apply Rinv_neq_0_compat; auto]. }
    field. split; apply Rabs_no_R0; auto. apply not_0_IZR; auto.
  Qed.
  Lemma duality U h : IZR (zdot (ztimes U m) (ztimes h (zrec m))) = D * IZR (zdot U h).
  Proof.
    rewrite <- ofZv_dot, <- ofZv_dot, <- !ofZv_times.
    assert (E : mmul (ofZ (zrec m)) (tr (ofZ m)) = mscale D mid).
    { apply zrec_adj. }
    rewrite dot_vmat2, E. apply dot_vmat_mscale.
  Qed.
  Lemma even_nonzero U h : zeven (U, h) = true -> zdot (ztimes U m) (ztimes h (zrec m)) <> 0%Z.
  Proof.
    intros H Q. unfold zeven in H; cbn [fst snd] in H. apply Z.eqb_eq in H.
    pose proof (duality U h) as E. rewrite Q in E. symmetry in E. apply Rmult_integral in E.
    destruct E as [E|E]; [auto|]. apply eq_IZR in E. rewrite E in H. discriminate.
  Qed.
  Lemma delta_zero U h : zeven (U, h) = true -> zperp m (U, h) = true -> axis_delta (ofZ m) r U h = 0.
  Proof.
    intros E P. rewrite ratio by (apply even_nonzero; auto). unfold zperp in P; cbn [fst snd] in P.
    apply zvec_eqb_true in P. rewrite P. unfold ofZv; cbn [Base.zx Base.zy Base.zz].
    replace (norm (V3 0 0 0)) with 0.
    - unfold Rdiv. rewrite Rmult_0_l, atan_0. ring.
    - unfold norm. vunfold. replace (0 * 0 + 0 * 0 + 0 * 0) with 0 by ring. rewrite sqrt_0. reflexivity.
  Qed.
  Lemma delta_far U h : zeven (U, h) = true -> far m (U, h) = true -> 2 < axis_delta (ofZ m) r U h.
  Proof.
    intros E F. pose proof (even_nonzero U h E) as NZ. rewrite ratio by auto. unfold far in F; cbn [fst snd] in F.
    set (t := ztimes U m) in *. set (s := ztimes h (zrec m)) in *. apply Z.leb_le in F.
    apply IZR_le in F. rewrite !mult_IZR in F. rewrite <- (ofZv_dot (zcross t s)) in F.
    assert (Hd : 0 < Rabs (IZR (zdot t s))) by (apply Rabs_pos_lt, not_0_IZR; auto).
    assert (Q : 1 / 20 <= norm (ofZv (zcross t s)) / Rabs (IZR (zdot t s))).
    { apply (Rmult_le_reg_r (Rabs (IZR (zdot t s)))); [auto|].
      replace (norm (ofZv (zcross t s)) / Rabs (IZR (zdot t s)) * Rabs (IZR (zdot t s)))
        with (norm (ofZv (zcross t s))) by (field; lra).
      unfold norm. apply Rsqr_incr_0.
      - rewrite Rsqr_sqrt by (vunfold; nra). unfold Rsqr.
        replace (1 / 20 * Rabs (IZR (zdot t s)) * (1 / 20 * Rabs (IZR (zdot t s))))
          with (1 / 400 * (Rabs (IZR (zdot t s)) * Rabs (IZR (zdot t s)))) by field.
        rewrite <- Rabs_mult, Rabs_right by nra. lra.
      - lra.
      - apply sqrt_pos. }
    assert (A : PI / 90 < atan (norm (ofZv (zcross t s)) / Rabs (IZR (zdot t s)))).
    { apply Rlt_le_trans with (atan (1 / 20)); [apply tan_2deg|].
      destruct Q as [Q|Q]; [left; apply atan_increasing; auto|rewrite <- Q; lra]. }
    unfold TODEGREES. pose proof PI_RGT_0. replace 2 with (PI / 90 * (180 / PI)) by (field; lra).
    apply Rmult_lt_compat_r; [|auto]. apply Rdiv_lt_0_compat; lra.
  Qed.

  Definition axis0 (u : zvec) : axis :=
    Axis u (vscale (/ norm (vmat (ofZv u) (ofZ m))) (vmat (ofZv u) (ofZ m))) 0.
  Definition us0 : list zvec := map fst (filter (fun p => zeven p && zperp m p) pairs22).

  Lemma candidates_ex : separated m = true ->
    candidates (ofZ m) r 2 = Ok (map axis0 us0).
  Proof.
    intros S. rewrite candidates_ok by (unfold r; apply reciprocal_dual; rewrite zrec_recip by exact HD; reflexivity).
    f_equal. unfold us0. unfold separated in S. rewrite forallb_forall in S. revert S.
    generalize pairs22. induction l as [|[U h] l IH]; intros S; [reflexivity|]. cbn [flat_map filter].
    rewrite IH by (intros; apply S; cbn; auto). rewrite cand_eq; cbn [fst snd].
    specialize (S (U, h) (or_introl eq_refl)). change ((Z.abs (zdot U h) =? 2)%Z) with (zeven (U, h)).
    destruct (zeven (U, h)) eqn:E; cbn [negb orb andb] in *; [|reflexivity].
    destruct (zperp m (U, h)) eqn:P; cbn [orb] in *.
    - rewrite delta_zero by auto. destruct (Rltb_spec 0 2); [|lra]. cbn [map fst app]. f_equal.
      unfold ax, axis0. rewrite delta_zero by auto. reflexivity.
    - pose proof (delta_far U h E S). destruct (Rltb_spec (axis_delta (ofZ m) r U h) 2); [lra|reflexivity].
  Qed.

  (* duplicates removed, on the index triples only *)
  Definition zhalve (u : zvec) : zvec := if only_0_2 u then Zv (zx u / 2) (zy u / 2) (zz u / 2) else u.
  Fixpoint zdedup (l : list zvec) : list zvec :=
    match l with [] => [] | a :: l' => if existsb (related a) l' then zdedup l' else zhalve a :: zdedup l' end.

  Lemma unit_half u : vscale (/ norm (vmat (ofZv (zscale 2 u)) (ofZ m))) (vmat (ofZv (zscale 2 u)) (ofZ m))
                      = vscale (/ norm (vmat (ofZv u) (ofZ m))) (vmat (ofZv u) (ofZ m)).
  Proof.
    assert (E : vmat (ofZv (zscale 2 u)) (ofZ m) = vscale 2 (vmat (ofZv u) (ofZ m))).
    { rewrite <- vmat_scale. f_equal. destruct u. unfold ofZv, zscale, vscale; cbn [vx vy vz Base.zx Base.zy Base.zz].
      rewrite !mult_IZR. reflexivity. }
    rewrite E, norm_scale, Rabs_right by lra. set (v := vmat _ _).
    destruct (Req_dec (norm v) 0) as [Z|Z].
    - rewrite Z, Rmult_0_r. rewrite Rinv_0. apply scale_zero.
    - apply scale_half; auto.
  Qed.
  Lemma halve_axis0 u : halve (axis0 u) = axis0 (zhalve u).
  Proof.
    unfold halve, zhalve, axis0. cbn [ax_U ax_t ax_delta]. destruct (only_0_2 u) eqn:E; [|reflexivity].
    destruct (only_0_2_spec u E) as (w & E1 & E2). rewrite E2. f_equal. rewrite E1. apply unit_half.
  Qed.
  Lemma dedup_axis0 l : dedup (map axis0 l) = map axis0 (zdedup l).
  Proof.
    induction l as [|a l IH]; cbn; [reflexivity|].
    assert (X : existsb (fun b => related a (ax_U b)) (map axis0 l) = existsb (related a) l).
    { clear. induction l; cbn; auto. rewrite IHl. reflexivity. }
    rewrite X, IH. destruct (existsb (related a) l); [reflexivity|]. cbn. rewrite <- halve_axis0. reflexivity.
  Qed.
  Lemma axes_ex : separated m = true -> lepage_axes (ofZ m) 2 = Ok (map axis0 (zdedup us0)).
  Proof.
    intros S. unfold lepage_axes. rewrite zrec_recip by exact HD. cbn [bind]. fold D. fold r.
    rewrite candidates_ex by auto. cbn [bind]. rewrite sort_by_id, dedup_axis0; [reflexivity|].
    generalize us0. induction l; cbn; constructor; auto. intros y Hy.
    apply in_map_iff in Hy. destruct Hy as (u & <- & _). cbn. lra.
  Qed.

  Lemma angle_same u : (ztimes u m) <> Zv 0 0 0 -> axes_angle (axis0 u) (axis0 u) = 0.
  Proof.
    intros NZ. unfold axes_angle, axis0; cbn [ax_t]. set (v := vmat (ofZv u) (ofZ m)).
    assert (N : 0 < dot v v).
    { unfold v. rewrite ofZv_times, ofZv_dot. apply IZR_lt. destruct (ztimes u m) as [a b c].
      unfold zdot; cbn [Base.zx Base.zy Base.zz]. 
      assert (a <> 0 \/ b <> 0 \/ c <> 0)%Z by (destruct (Z.eq_dec a 0), (Z.eq_dec b 0), (Z.eq_dec c 0); auto; subst; congruence).
      nia. }
    assert (E : dot (vscale (/ norm v) v) (vscale (/ norm v) v) = 1).
    { rewrite dot_scale_l, dot_scale_r. unfold norm. rewrite <- (sqrt_sqrt (dot v v)) at 3 by lra.
      field. apply Rgt_not_eq, sqrt_lt_R0; auto. }
    rewrite E. unfold clip. rewrite (Rmax_left 1 (-1)) by lra. rewrite (Rmin_left 1 1) by lra.
    rewrite Rabs_R1, acos_1. ring.
  Qed.
  Lemma angle_orth u w : zdot (ztimes u m) (ztimes w m) = 0%Z -> axes_angle (axis0 u) (axis0 w) = 90.
  Proof.
    intros H. unfold axes_angle, axis0; cbn [ax_t]. rewrite dot_scale_l, dot_scale_r, !ofZv_times, ofZv_dot, H.
    rewrite !Rmult_0_r. unfold clip. rewrite (Rmax_left 0 (-1)) by lra. rewrite (Rmin_left 0 1) by lra.
    rewrite Rabs_R0, acos_0. unfold TODEGREES. field. pose proof PI_RGT_0; lra.
  Qed.
End Ex.

(* three mutually perpendicular axes *)
Definition right_angles : list (list R) := [[0; 90; 90]; [90; 0; 90]; [90; 90; 0]].
Lemma sort_right : sort_r (concat right_angles) = [0; 0; 0; 90; 90; 90; 90; 90; 90].
Proof.
  assert (A : Rleb 0 0 = true) by (apply Rleb_true; lra). assert (B : Rleb 0 90 = true) by (apply Rleb_true; lra).
  assert (C : Rleb 90 90 = true) by (apply Rleb_true; lra).
  assert (E : Rleb 90 0 = false) by (apply not_true_is_false; rewrite Rleb_true; lra).
  unfold right_angles, sort_r. cbn -[Rleb]. repeat (rewrite ?A, ?B, ?C, ?E; cbn -[Rleb]). reflexivity.
Qed.
Lemma sort_const a b : a <= b -> sort_r [a; b; b; a; b; b; a; b; b] = [a; a; a; b; b; b; b; b; b].
Proof.
  intros H. destruct (Req_dec a b) as [->|NE].
  { unfold sort_r. apply sort_by_id. repeat (constructor; [cbn; intros; intuition lra|]). constructor. }
  assert (A : Rleb a a = true) by (apply Rleb_true; lra). assert (B : Rleb a b = true) by (apply Rleb_true; lra).
  assert (C : Rleb b b = true) by (apply Rleb_true; lra).
  assert (E : Rleb b a = false) by (apply not_true_is_false; rewrite Rleb_true; lra).
  unfold sort_r. cbn -[Rleb]. repeat (rewrite ?A, ?B, ?C, ?E; cbn -[Rleb]). reflexivity.
Qed.
Lemma angles3 m u v w : ztimes u m <> Zv 0 0 0 -> ztimes v m <> Zv 0 0 0 -> ztimes w m <> Zv 0 0 0 ->
  zdot (ztimes u m) (ztimes v m) = 0%Z -> zdot (ztimes u m) (ztimes w m) = 0%Z -> zdot (ztimes v m) (ztimes w m) = 0%Z ->
  angles_of (map (axis0 m) [u; v; w]) = right_angles.
Proof.
  intros. unfold angles_of. cbn -[axes_angle]. rewrite !angle_same, !angle_orth by auto.
  unfold right_angles. replace (0 + 0) with 0 by ring. reflexivity.
Qed.
Lemma classify3 axes cell : length axes = 3%nat ->
  classify right_angles axes (1 / 10000) cell =
  (do r <- or_else (check_orc right_angles axes (1 / 10000)) (check_mcl axes (1 / 10000) cell);
   match r with Some s => Ok s | None => Ok "TRI"%string end) /\
  matches (sub_square 3 right_angles) orc_target (1 / 10000) = true.
Proof.
  intros L. assert (S3 : sub_square 3 right_angles = right_angles) by reflexivity. split.
  - unfold classify. replace (check_cub right_angles axes (1 / 10000)) with (@Ok (option string) None) by reflexivity.
    replace (check_hex right_angles (1 / 10000)) with (@Ok (option string) None) by reflexivity.
    replace (check_tet right_angles axes (1 / 10000) cell) with (@Ok (option string) None) by reflexivity.
    replace (check_rhl right_angles (1 / 10000)) with (@Ok (option string) None); [reflexivity|].
    unfold check_rhl, matches. rewrite S3, sort_right. cbn [length right_angles Nat.leb].
    replace (concat rhl_target) with [0; 60; 60; 0; 60; 60; 0; 60; 60] by reflexivity.
    rewrite sort_const by lra. cbn [all_close].
    assert (F : Rltb (Rabs (90 - 60)) (1 / 10000) = false)
      by (apply not_true_is_false; rewrite Rltb_true, Rabs_right by lra; lra).
    rewrite F, !andb_false_r. reflexivity.
  - unfold matches. rewrite S3, sort_right.
    replace (concat orc_target) with [0; 90; 90; 0; 90; 90; 0; 90; 90] by reflexivity.
    rewrite sort_const by lra. cbn [all_close].
    assert (T : forall x, Rltb (Rabs (x - x)) (1 / 10000) = true)
      by (intros; apply Rltb_true; replace (x - x) with 0 by ring; rewrite Rabs_R0; lra).
    rewrite !T. reflexivity.
Qed.
