(* P_BravaisMono.v : property C60 for the lattices with one two-fold axis or none. *)
From Verif Require Import Base M_Numerical M_Geometry M_Cell M_Niggli M_Voronoi M_ScExamples F_Voronoi F_Geometry M_Lepage F_Lepage F_LepageEx
  F_Bravais F_Angles F_Classify F_Mono P_Lepage P_Bravais.
Open Scope R_scope.

(* ---------------- lemmas ---------------- *)
Lemma sole_delta cell r limit e : get_reciprocal cell = Ok r -> 0 < limit -> clear_cut cell limit ->
  (forall U h, axis_angle cell U h 0 -> zcross U e = Zv 0 0 0) ->
  forall U h, In U (miller 2) -> In h (miller 2) -> zeven (U, h) = true ->
     (axis_delta cell r U h = 0 /\ zcross U e = Zv 0 0 0) \/ limit <= axis_delta cell r U h /\ axis_delta cell r U h <> 0.
Proof.
  intros R L CC S U h HU Hh E. assert (A : axis_angle cell U h (axis_delta cell r U h)).
  { pose proof HU as HU'. pose proof Hh as Hh'. apply in_miller in HU', Hh'; try lia. split; [exact HU'|]. split; [exact Hh'|].
    unfold zeven in E; cbn [fst snd] in E. apply Z.eqb_eq in E. split; [exact E|]. exists r.
    pose proof (reciprocal_dual _ _ R) as D. split; [exact D|]. apply atan_line_angle.
    rewrite (dual_dot _ _ _ _ D), ofZv_dot. intros Q. apply Rmult_integral in Q. pose proof PI_RGT_0. destruct Q as [Q|Q]; [lra|].
    apply eq_IZR in Q. rewrite Q in E. discriminate. }
  destruct (CC _ _ _ A) as [Z|Z]; [|right; split; [exact Z|lra]]. left. split; auto. rewrite Z in A. apply (S U h A).
Qed.
Lemma copy_recip cell m : copy_of cell m -> det m <> 0 -> exists r, get_reciprocal cell = Ok r.
Proof. intros C D. apply recip_exists. intros Z. apply (det_lin _ _ C D). rewrite metric_det, Z. ring. Qed.
Lemma alpha_sin al : 0 < al < 180 -> 0 < sin (al * TORADIANS).
Proof. intros A. pose proof PI_RGT_0. unfold TORADIANS. apply sin_gt_0; nra. Qed.

(* the documented primitive monoclinic cell, in any orientation, when its two-fold axis is the only one *)
Theorem C60_monoclinic : forall spglib given cell a b c alpha tol no_niggli limit,
  lepage_cell spglib given no_niggli = Ok cell -> 0 < a -> 0 < b -> 0 < c -> 0 < alpha < 180 -> copy_of cell (SC_MCL a b c alpha) ->
  0 < limit -> clear_cut cell limit -> (forall U h, axis_angle cell U h 0 -> zy U = 0%Z /\ zz U = 0%Z) ->
  0 < Rabs tol <= a * a ->
  lepage spglib given tol no_niggli limit = Ok "MCL"%string.
Proof.
  intros sp given cell a b c al tol nn limit CE A B C AL CO L CC S T. pose proof (alpha_sin al AL) as SN.
  destruct (copy_recip cell _ CO) as (r & R).
  { unfold SC_MCL. cbv zeta. vunfold. set (s := sin _) in *. clearbody s.
    assert (0 < a * b * (c * s)) by (repeat apply Rmult_lt_0_compat; auto). intros Z. lra. }
  set (co := cos (al * TORADIANS)).
  assert (G : metric cell = mk (a * a) 0 0 0 (b * b) (b * c * co) 0 (b * c * co) (c * c)).
  { unfold metric. rewrite CO. unfold SC_MCL. cbv zeta. fold co. pose proof (sin2_cos2 (al * TORADIANS)) as SC. unfold Rsqr in SC. fold co in SC.
    set (s := sin _) in *. clearbody s co. vunfold. vcomp; try ring. transitivity (c * c * (s * s + co * co)); [ring|]. rewrite SC. ring. }
  apply (mono_run sp given cell r tol nn limit (Zv 1 0 0) (a * a) (b * b) (c * c) (b * c * co) 1); auto.
  - rewrite G. unfold ofZv; cbn [Base.zx Base.zy Base.zz]. vunfold. vcomp; ring.
  - nra.
  - intros i I. rewrite G. destruct i as [x y z]. unfold zdot in I; cbn [Base.zx Base.zy Base.zz] in *. assert (x = 0)%Z by lia. subst x.
    rewrite !mult_IZR. unfold ofZv; cbn [Base.zx Base.zy Base.zz]. vunfold. ring.
  - apply sole_delta; auto. intros U h Q. destruct (S U h Q) as (S1 & S2). unfold zcross; cbn. rewrite S1, S2. f_equal; lia.
Qed.
Print Assumptions C60_monoclinic.

(* the documented base-centred monoclinic cell; its axis is a1 - a2 *)
Theorem C60_base_centred_monoclinic : forall spglib given cell a b c alpha tol no_niggli limit,
  lepage_cell spglib given no_niggli = Ok cell -> 0 < a -> 0 < b -> 0 < c -> 0 < alpha < 180 -> copy_of cell (SC_MCLC a b c alpha) ->
  0 < limit -> clear_cut cell limit -> (forall U h, axis_angle cell U h 0 -> zy U = (- zx U)%Z /\ zz U = 0%Z) ->
  0 < Rabs tol <= a * a / 2 ->
  lepage spglib given tol no_niggli limit = Ok "MCLC"%string.
Proof.
  intros sp given cell a b c al tol nn limit CE A B C AL CO L CC S T. pose proof (alpha_sin al AL) as SN.
  destruct (copy_recip cell _ CO) as (r & R).
  { unfold SC_MCLC. cbv zeta. vunfold. set (s := sin _) in *. clearbody s.
    assert (0 < a * b * (c * s)) by (repeat apply Rmult_lt_0_compat; auto). intros Z. lra. }
  set (co := cos (al * TORADIANS)).
  assert (G : metric cell = mk ((a * a + b * b) / 4) ((b * b - a * a) / 4) (b * c * co / 2) ((b * b - a * a) / 4) ((a * a + b * b) / 4) (b * c * co / 2)
      (b * c * co / 2) (b * c * co / 2) (c * c)).
  { unfold metric. rewrite CO. unfold SC_MCLC. cbv zeta. fold co. pose proof (sin2_cos2 (al * TORADIANS)) as SC. unfold Rsqr in SC. fold co in SC.
    set (s := sin _) in *. clearbody s co. vunfold. vcomp; try field. transitivity (c * c * (s * s + co * co)); [ring|]. rewrite SC. ring. }
  apply (mono_run sp given cell r tol nn limit (Zv 1 (-1) 0) (a * a / 2) (b * b) (c * c) (b * c * co) 2); auto.
  - rewrite G. unfold ofZv; cbn [Base.zx Base.zy Base.zz]. vunfold. vcomp; field.
  - nra.
  - intros i I. rewrite G. destruct i as [x y z]. unfold zdot in I; cbn [Base.zx Base.zy Base.zz] in *. assert (x = y)%Z by lia. subst x.
    rewrite !mult_IZR. unfold ofZv; cbn [Base.zx Base.zy Base.zz]. vunfold. field.
  - apply sole_delta; auto. intros U h Q. destruct (S U h Q) as (S1 & S2). unfold zcross; cbn. rewrite S1, S2. f_equal; lia.
Qed.
Print Assumptions C60_base_centred_monoclinic.

(* a cell without a two-fold axis is triclinic *)
Theorem C60_triclinic : forall spglib given cell tol no_niggli limit,
  lepage_cell spglib given no_niggli = Ok cell -> det cell <> 0 -> 0 < limit ->
  (forall U h delta, axis_angle cell U h delta -> limit <= delta) ->
  lepage spglib given tol no_niggli limit = Ok "TRI"%string.
Proof.
  intros sp given cell tol nn limit CE D L H. destruct (recip_exists cell D) as (r & R).
  apply (no_axis_run sp given cell r); auto. intros U h HU Hh E.
  assert (CC : clear_cut cell limit) by (intros V k d A; right; apply (H _ _ _ A)).
  destruct (sole_delta cell r limit (Zv 1 0 0) R L CC) with (U := U) (h := h) as [(Z & _)|(Z & _)]; auto.
  - intros V k A. pose proof (H _ _ _ A). lra.
  - exfalso. clear CC. pose proof HU as HU'. pose proof Hh as Hh'. apply in_miller in HU', Hh'; try lia.
    assert (A : axis_angle cell U h (axis_delta cell r U h)).
    { split; [exact HU'|]. split; [exact Hh'|].
      unfold zeven in E; cbn [fst snd] in E. apply Z.eqb_eq in E. split; [exact E|]. exists r.
      pose proof (reciprocal_dual _ _ R) as DD. split; [exact DD|]. apply atan_line_angle.
      rewrite (dual_dot _ _ _ _ DD), ofZv_dot. intros Q. apply Rmult_integral in Q. pose proof PI_RGT_0. destruct Q as [Q|Q]; [lra|].
      apply eq_IZR in Q. rewrite Q in E. discriminate. }
    pose proof (H _ _ _ A). lra.
Qed.
Print Assumptions C60_triclinic.

(* ---------------- rotating the cell ---------------- *)
Definition turn (q : mat) (a : axis) : axis := Axis (ax_U a) (vmat (ax_t a) q) (ax_delta a).
Lemma insert_turn q x l : insert_by ax_delta (turn q x) (map (turn q) l) = map (turn q) (insert_by ax_delta x l).
Proof. induction l as [|y l IH]; cbn; auto. destruct (Rleb (ax_delta x) (ax_delta y)); cbn; [reflexivity|]. rewrite IH. reflexivity. Qed.
Lemma sort_turn q l : sort_by ax_delta (map (turn q) l) = map (turn q) (sort_by ax_delta l).
Proof.
  unfold sort_by. induction l as [|x l IH]; cbn; auto.
  rewrite IH. apply insert_turn.
Qed.
Lemma dedup_turn q l : dedup (map (turn q) l) = map (turn q) (dedup l).
Proof.
  induction l as [|a l IH]; cbn; [reflexivity|].
  assert (X : existsb (fun b => related (ax_U a) (ax_U b)) (map (turn q) l) = existsb (fun b => related (ax_U a) (ax_U b)) l).
  { clear. induction l; cbn; auto. rewrite IHl. reflexivity. }
  rewrite X, IH. destruct (existsb _ l); [reflexivity|]. cbn. f_equal. unfold halve, turn; cbn. destruct (only_0_2 (ax_U a)); reflexivity.
Qed.
Lemma angles_turn q l : orthogonal q -> angles_of (map (turn q) l) = angles_of l.
Proof.
  intros O. unfold angles_of. rewrite map_length. cbv zeta. rewrite combine_map_r, !map_map. apply map_ext. intros p. rewrite map_map. apply map_ext. intros p'. cbn [fst snd].
  assert (A : forall a b, axes_angle (turn q a) (turn q b) = axes_angle a b).
  { intros. unfold axes_angle, turn; cbn [ax_t]. rewrite dot_as_vmat by auto. reflexivity. }
  rewrite !A. reflexivity.
Qed.
Lemma drop_turn q l : drop_worst (map (turn q) l) = map (turn q) (drop_worst l).
Proof.
  unfold drop_worst. rewrite <- map_rev. set (r := rev l). clearbody r.
  assert (D : drop_ties (map (turn q) r) = map (turn q) (drop_ties r)).
  { induction r as [|a r IH]; [reflexivity|]. destruct r as [|b r]; [reflexivity|]. cbn [map drop_ties] in *. cbn [turn ax_delta]. destruct (Reqb (ax_delta a) (ax_delta b)); [exact IH|reflexivity]. }
  rewrite D, map_rev. f_equal. destruct (drop_ties r); reflexivity.
Qed.
Lemma max_turn q l : max_delta (map (turn q) l) = max_delta l.
Proof. unfold max_delta. induction l; cbn; auto. rewrite IHl. reflexivity. Qed.
Lemma norm_turn q cell u : orthogonal q -> norm (vmat u (mmul cell q)) = norm (vmat u cell).
Proof. intros O. rewrite <- vmat_mmul. apply norm_vmat. exact O. Qed.
Lemma sort_key_ext {A} (k1 k2 : A -> R) l : (forall x, k1 x = k2 x) -> sort_by k1 l = sort_by k2 l.
Proof.
  intros H. unfold sort_by. induction l as [|x l IH]; cbn; auto. rewrite IH. generalize (fold_right (insert_by k2) [] l). intros m.
  induction m as [|y m IHm]; cbn; auto. rewrite !H. destruct (Rleb _ _); auto. rewrite IHm. reflexivity.
Qed.
Lemma classify_turn q angles l tol cell : orthogonal q -> classify angles (map (turn q) l) tol (mmul cell q) = classify angles l tol cell.
Proof.
  intros O. assert (U : map ax_U (map (turn q) l) = map ax_U l) by (rewrite map_map; reflexivity).
  unfold classify, check_cub, check_tet, check_orc. rewrite U.
  assert (M : check_mcl (map (turn q) l) tol (mmul cell q) = check_mcl l tol cell).
  { unfold check_mcl. destruct l as [|b l']; [reflexivity|]. cbn [map]. change (ax_U (turn q b)) with (ax_U b).
    unfold get_perpendicular_shortest, perpendicular. rewrite (sort_key_ext _ (fun x => norm (vmat (ofZv x) cell))) by (intros; apply norm_turn; auto).
    rewrite (filter_ext _ (fun i => negb (zvec_eqb i (Zv 0 0 0)) && Rltb (Rabs (dot (vmat (ofZv i) cell) (vmat (ofZv (ax_U b)) cell))) tol)); [reflexivity|].
    intros i. rewrite <- !vmat_mmul, (dot_as_vmat _ _ q O). reflexivity. }
  rewrite M. cbv zeta. rewrite (sort_key_ext (fun u => norm (vmat (ofZv u) (mmul cell q))) (fun u => norm (vmat (ofZv u) cell))) by (intros; apply norm_turn; auto).
  reflexivity.
Qed.
Lemma loop_turn q tol cell : orthogonal q -> forall fuel l angles,
  lepage_loop fuel (map (turn q) l) angles tol (mmul cell q) = lepage_loop fuel l angles tol cell.
Proof.
  intros O. induction fuel as [|fuel IH]; intros l angles; [reflexivity|]. cbn [lepage_loop]. rewrite classify_turn, max_turn, drop_turn, map_length by auto.
  destruct (classify angles l tol cell); cbn [bind]; [|reflexivity]. destruct (Rltb tol (max_delta l)); [|reflexivity]. rewrite IH. reflexivity.
Qed.
Lemma lagrange t s : dot (cross t s) (cross t s) = dot t t * dot s s - dot t s * dot t s.
Proof. vring. Qed.
Lemma delta_turn q cell r U h : orthogonal q -> axis_delta (mmul cell q) (mmul r q) U h = axis_delta cell r U h.
Proof.
  intros O. pose proof (fun u v => dot_as_vmat u v q O) as DQ. unfold axis_delta. rewrite <- !vmat_mmul. unfold norm. rewrite !lagrange, !DQ. reflexivity.
Qed.
Lemma cand_turn q cell r limit p : orthogonal q -> cand (mmul cell q) (mmul r q) limit p = map (turn q) (cand cell r limit p).
Proof.
  intros O. rewrite !cand_eq. rewrite !delta_turn by auto. destruct (_ && _); [|reflexivity]. cbn [map]. f_equal. unfold ax, turn; cbn [ax_U ax_t ax_delta].
  rewrite delta_turn, norm_turn by auto. rewrite <- vmat_mmul, vmat_scale. reflexivity.
Qed.
Lemma axes_turn q cell limit : orthogonal q -> det cell <> 0 ->
  lepage_axes (mmul cell q) limit = (do l <- lepage_axes cell limit; Ok (map (turn q) l)).
Proof.
  intros O D. destruct (recip_exists cell D) as (r & R). pose proof (reciprocal_dual _ _ R) as RD.
  assert (DQ : det q <> 0).
  { intros Z. unfold orthogonal in O. apply (f_equal det) in O. rewrite det_mmul, Z, Rmult_0_l in O. assert (det mid = 1) by (vunfold; ring). lra. }
  assert (RQ : mmul (mmul r q) (tr (mmul cell q)) = mscale (2 * PI) mid).
  { rewrite tr_mmul, mmul_assoc, <- (mmul_assoc q (tr q)), O, mmul_id_l. exact RD. }
  assert (R' : get_reciprocal (mmul cell q) = Ok (mmul r q)).
  { apply reciprocal_unique; auto. rewrite det_mmul. apply Rmult_integral_contrapositive_currified; auto. }
  unfold lepage_axes. rewrite R, R'. cbn [bind]. rewrite !candidates_ok by auto. cbn [bind]. rewrite <- dedup_turn, <- sort_turn. do 3 f_equal.
  generalize pairs22. intros l. induction l as [|p l IH]; [reflexivity|]. cbn [flat_map]. rewrite map_app, IH, cand_turn by auto. reflexivity.
Qed.

(* the named lattice, and all intermediate ones, do not change when the cell is rotated or reflected *)
Theorem C60_orientation : forall spglib cell q tol limit, orthogonal q -> det cell <> 0 ->
  lepage_all spglib (mmul cell q) tol true limit = lepage_all spglib cell tol true limit /\
  lepage spglib (mmul cell q) tol true limit = lepage spglib cell tol true limit.
Proof.
  intros sp cell q tol limit O D.
  assert (A : lepage_all sp (mmul cell q) tol true limit = lepage_all sp cell tol true limit).
  { unfold lepage_all. cbn [lepage_cell bind]. rewrite (axes_turn q cell limit O D). destruct (lepage_axes cell limit) as [l|e]; cbn [bind]; [|reflexivity].
    rewrite map_length, angles_turn, loop_turn by auto. reflexivity. }
  split; [exact A|]. unfold lepage. rewrite A. reflexivity.
Qed.
Print Assumptions C60_orientation.
Example orientation_example : orthogonal (mk (3 / 5) (4 / 5) 0 (- (4 / 5)) (3 / 5) 0 0 0 (-1)) /\
  lepage None (mmul (ofZ (Zm 1 0 0 0 2 0 0 0 3)) (mk (3 / 5) (4 / 5) 0 (- (4 / 5)) (3 / 5) 0 0 0 (-1))) (1 / 10000) true 2 = Ok "ORC"%string.
Proof.
  assert (O : orthogonal (mk (3 / 5) (4 / 5) 0 (- (4 / 5)) (3 / 5) 0 0 0 (-1))) by (unfold orthogonal; vunfold; vcomp; field).
  split; [exact O|]. destruct (C60_orientation None (ofZ (Zm 1 0 0 0 2 0 0 0 3)) _ (1 / 10000) 2 O) as (_ & E).
  - unfold ofZ; vunfold. lra.
  - rewrite E. apply identifies_orc.
Qed.

(* ---------------- examples ---------------- *)
Definition only_along (m : zmat) (e : zvec) : bool := forallb (fun p => negb (zeven p) || negb (zperp m p) || along e p) pairs22.
Lemma sole_int m e : det (ofZ m) <> 0 -> separated m = true -> only_along m e = true -> forall U h, axis_angle (ofZ m) U h 0 -> zcross U e = Zv 0 0 0.
Proof.
  intros D S A U h Q. destruct (axis_angle_delta _ _ _ _ _ (zrec_recip m D) Q) as (HU & Hh & E & Z).
  assert (I : In (U, h) pairs22) by (unfold pairs22; apply in_flat_map; exists U; split; auto; apply in_map_iff; eauto).
  unfold separated, only_along in *. rewrite forallb_forall in S, A. specialize (S _ I). specialize (A _ I). rewrite E in S, A. cbn [negb orb] in S, A.
  destruct (zperp m (U, h)); cbn [negb orb] in S, A.
  - unfold along in A. apply andb_true_iff in A. apply zvec_eqb_true, A.
  - pose proof (delta_far m D U h E S). cbv zeta in *. lra.
Qed.
Definition al35 := acos (3 / 5) * 180 / PI.
Lemma al35_ok : 0 < al35 < 180 /\ cos (al35 * TORADIANS) = 3 / 5 /\ sin (al35 * TORADIANS) = 4 / 5.
Proof.
  pose proof PI_RGT_0 as P. unfold al35. pose proof (acos_bound_lt (3 / 5) ltac:(lra)) as [B1 B2].
  replace (acos (3 / 5) * 180 / PI * TORADIANS) with (acos (3 / 5)) by (unfold TORADIANS; field; lra). rewrite cos_acos by lra. repeat split.
  - apply Rdiv_lt_0_compat; lra.
  - apply (Rmult_lt_reg_r PI); auto. unfold Rdiv. rewrite Rmult_assoc, Rinv_l by lra. lra.
  - rewrite sin_acos by lra. unfold Rsqr. replace (1 - 3 / 5 * (3 / 5)) with (4 / 5 * (4 / 5)) by field. apply sqrt_square. lra.
Qed.
Example identifies_mcl : lepage None (ofZ (Zm 2 0 0 0 7 0 0 3 4)) (1 / 10000) true 2 = Ok "MCL"%string.
Proof.
  destruct al35_ok as (A & C & S). assert (D : det (ofZ (Zm 2 0 0 0 7 0 0 3 4)) <> 0) by (unfold ofZ; vunfold; lra).
  assert (SP : separated (Zm 2 0 0 0 7 0 0 3 4) = true) by (vm_compute; reflexivity).
  apply (C60_monoclinic None (ofZ (Zm 2 0 0 0 7 0 0 3 4)) (ofZ (Zm 2 0 0 0 7 0 0 3 4)) 2 7 5 al35); try lra; try reflexivity.
  - unfold copy_of, SC_MCL. rewrite C, S. unfold ofZ; vunfold. vcomp; field.
  - apply separated_clear_cut; auto.
  - intros U h Q. pose proof (sole_int _ (Zv 1 0 0) D SP ltac:(vm_compute; reflexivity) U h Q) as Z. unfold zcross in Z; cbn in Z. injection Z as Z1 Z2 Z3. lia.
  - rewrite Rabs_right; lra.
Qed.
Example identifies_mclc : lepage None (ofZ (Zm 2 5 0 (-2) 5 0 0 3 4)) (1 / 10000) true 2 = Ok "MCLC"%string.
Proof.
  destruct al35_ok as (A & C & S). assert (D : det (ofZ (Zm 2 5 0 (-2) 5 0 0 3 4)) <> 0) by (unfold ofZ; vunfold; lra).
  assert (SP : separated (Zm 2 5 0 (-2) 5 0 0 3 4) = true) by (vm_compute; reflexivity).
  apply (C60_base_centred_monoclinic None (ofZ (Zm 2 5 0 (-2) 5 0 0 3 4)) (ofZ (Zm 2 5 0 (-2) 5 0 0 3 4)) 4 10 5 al35); try lra; try reflexivity.
  - unfold copy_of, SC_MCLC. rewrite C, S. unfold ofZ; vunfold. vcomp; field.
  - apply separated_clear_cut; auto.
  - intros U h Q. pose proof (sole_int _ (Zv 1 (-1) 0) D SP ltac:(vm_compute; reflexivity) U h Q) as Z. unfold zcross in Z; cbn in Z. injection Z as Z1 Z2 Z3. lia.
  - rewrite Rabs_right; lra.
Qed.
Example identifies_tri : lepage None (ofZ (Zm 4 1 0 0 5 1 1 1 6)) (1 / 10000) true 2 = Ok "TRI"%string.
Proof.
  assert (D : det (ofZ (Zm 4 1 0 0 5 1 1 1 6)) <> 0) by (unfold ofZ; vunfold; lra).
  apply (C60_triclinic None (ofZ (Zm 4 1 0 0 5 1 1 1 6)) (ofZ (Zm 4 1 0 0 5 1 1 1 6))); try lra; try reflexivity; auto.
  intros U h delta Q. destruct (axis_angle_delta _ _ _ _ _ (zrec_recip _ D) Q) as (HU & Hh & E & ->).
  assert (I : In (U, h) pairs22) by (unfold pairs22; apply in_flat_map; exists U; split; auto; apply in_map_iff; eauto).
  assert (F : forallb (fun p => negb (zeven p) || far (Zm 4 1 0 0 5 1 1 1 6) p) pairs22 = true) by (vm_compute; reflexivity).
  rewrite forallb_forall in F. specialize (F _ I). rewrite E in F. cbn [negb orb] in F. left. apply delta_far; auto.
Qed.

(* the tolerance on scalar products is absolute: a thousand times smaller, the same monoclinic cell is named triclinic *)
Definition shrunk : mat := mscale (1 / 1000) (ofZ (Zm 2 0 0 0 7 0 0 3 4)).
Lemma shrink_delta k m r U h : k <> 0 -> axis_delta (mscale k m) (mscale (/ k) r) U h = axis_delta m r U h.
Proof.
  intros K. unfold axis_delta. rewrite !vmat_mscale, cross_scale_r. do 2 f_equal.
  assert (C : cross (vscale k (vmat (ofZv U) m)) (vmat (ofZv h) r) = vscale k (cross (vmat (ofZv U) m) (vmat (ofZv h) r))).
  { generalize (vmat (ofZv U) m) (vmat (ofZv h) r). clear. vring. }
  rewrite C, vscale_scale, Rinv_l, vscale_1, dot_scale_l, dot_scale_r by auto. f_equal. f_equal. rewrite <- Rmult_assoc, Rinv_r, Rmult_1_l by auto. reflexivity.
Qed.
Theorem C60_scale_refuted : exists cell, lepage None cell (1 / 10000) true 2 = Ok "MCL"%string /\
  lepage None (mscale (1 / 1000) cell) (1 / 10000) true 2 = Ok "TRI"%string.
Proof.
  exists (ofZ (Zm 2 0 0 0 7 0 0 3 4)). split; [apply identifies_mcl|]. fold shrunk. set (m := Zm 2 0 0 0 7 0 0 3 4).
  assert (D : det (ofZ m) <> 0) by (unfold m, ofZ; vunfold; lra). assert (SP : separated m = true) by (vm_compute; reflexivity).
  pose proof (zrec_recip m D) as R. set (r := mscale (2 * PI / det (ofZ m)) (ofZ (zrec m))) in R.
  assert (R' : get_reciprocal shrunk = Ok (mscale (/ (1 / 1000)) r)).
  { apply reciprocal_unique.
    - unfold shrunk. fold m. revert D. generalize (ofZ m). intros c D Z. apply D. revert Z. destruct c as [[] [] []]. vunfold. intros Z. lra.
    - rewrite <- (reciprocal_dual _ _ R). unfold shrunk. fold m. generalize r (ofZ m). clear. intros [[] [] []] [[] [] []]. vunfold. vcomp; field. }
  assert (I : isolated shrunk (mscale (/ (1 / 1000)) r) 2 (along (Zv 1 0 0))).
  { apply (one_axis _ _ _ _ (4 / 1000000)); auto; try lra.
    - unfold metric, shrunk, m, ofZ, ofZv; cbn [Base.zx Base.zy Base.zz]. vunfold. vcomp; field.
    - intros U h HU Hh E. unfold shrunk. fold m. rewrite shrink_delta by lra. apply (sole_delta (ofZ m) r 2 (Zv 1 0 0) R); auto; try lra.
      + apply separated_clear_cut; auto.
      + apply (sole_int m (Zv 1 0 0)); [exact D|exact SP|vm_compute; reflexivity]. }
  rewrite (run_exact None shrunk shrunk (mscale (/ (1 / 1000)) r) (1 / 10000) true 2 (along (Zv 1 0 0)) [Zv 1 0 0]); auto; try lra.
  cbn [map]. set (x := exact_axis shrunk (Zv 1 0 0)). unfold classify.
  replace (check_cub (angles_of [x]) [x] (Rabs (1 / 10000))) with (@Ok (option string) None) by reflexivity.
  replace (check_hex (angles_of [x]) (Rabs (1 / 10000))) with (@Ok (option string) None) by reflexivity.
  replace (check_tet (angles_of [x]) [x] (Rabs (1 / 10000)) shrunk) with (@Ok (option string) None) by reflexivity.
  replace (check_rhl (angles_of [x]) (Rabs (1 / 10000))) with (@Ok (option string) None) by reflexivity.
  replace (check_orc (angles_of [x]) [x] (Rabs (1 / 10000))) with (@Ok (option string) None) by reflexivity.
  cbn [or_else]. unfold check_mcl. change (ax_U x) with (Zv 1 0 0).
  assert (P : perpendicular (Zv 1 0 0) shrunk (Rabs (1 / 10000))
     = bsort (fun u v => Z.leb (zdot (ztimes u m) (ztimes u m)) (zdot (ztimes v m) (ztimes v m))) (filter (fun i => negb (zvec_eqb i (Zv 0 0 0))) (miller 1))).
  { unfold perpendicular. rewrite (filter_ext_in _ (fun i => negb (zvec_eqb i (Zv 0 0 0)))).
    - apply sort_ext. intros u v _ _. unfold norm. rewrite Rleb_sqrt.
      + unfold shrunk. rewrite !vmat_mscale, !dot_scale_l, !dot_scale_r, !ofZv_times, !ofZv_dot, <- Rleb_IZR.
        destruct (Rleb_spec (IZR (zdot (ztimes u m) (ztimes u m))) (IZR (zdot (ztimes v m) (ztimes v m)))) as [H|H].
        * apply Rleb_true. fold m. lra.
        * apply not_true_is_false. rewrite Rleb_true. fold m. lra.
      + generalize (vmat (ofZv u) shrunk). intros w; destruct w; vunfold; nra.
      + generalize (vmat (ofZv v) shrunk). intros w; destruct w; vunfold; nra.
    - intros i Hi. apply in_miller in Hi; [|lia]. destruct Hi as (Hx & _). rewrite <- (andb_true_r (negb _)) at 2. f_equal.
      apply Rltb_true. unfold shrunk. rewrite !vmat_mscale, !dot_scale_l, !dot_scale_r, !ofZv_times, !ofZv_dot.
      assert (E : zdot (ztimes i (Zm 2 0 0 0 7 0 0 3 4)) (ztimes (Zv 1 0 0) (Zm 2 0 0 0 7 0 0 3 4)) = (4 * zx i)%Z) by (unfold zdot, ztimes; cbn [Base.zx Base.zy Base.zz z11 z12 z13 z21 z22 z23 z31 z32 z33]; ring).
      rewrite E, mult_IZR. assert (HX : (-1 <= zx i <= 1)%Z) by lia. destruct HX as (H1 & H2). apply IZR_le in H1, H2. apply Rabs_def1; rewrite Rabs_right; lra. }
  unfold get_perpendicular_shortest. rewrite P. vm_compute. reflexivity.
Qed.
Print Assumptions C60_scale_refuted.
