(* P_Bravais.v : property C60, the Bravais lattice named by lepage. *)
From Verif Require Import Base M_Numerical M_Geometry M_Cell M_Niggli M_Voronoi M_ScExamples F_Voronoi F_Geometry M_Lepage F_Lepage F_LepageEx P_ScExamples
  F_Bravais F_Angles F_Classify P_Lepage.
Open Scope R_scope.

(* ---------------- specification ---------------- *)
(* the cell is a rotated (or reflected) copy of m: same lengths and angles *)
Definition copy_of (cell m : mat) : Prop := mmul cell (tr cell) = mmul m (tr m).
Definition small (u : zvec) : Prop := (-2 <= zx u <= 2 /\ -2 <= zy u <= 2 /\ -2 <= zz u <= 2)%Z.
(* delta is the angle in degrees between a lattice direction U and the normal of a lattice plane h,
   both with indices up to 2, for which the direction crosses two planes *)
Definition axis_angle (cell : mat) (U h : zvec) (delta : R) : Prop :=
  small U /\ small h /\ (Z.abs (zx U * zx h + zy U * zy h + zz U * zz h) = 2)%Z /\
  exists rcell, mmul rcell (tr cell) = mscale (2 * PI) mid /\ line_angle (vmat (ofZv U) cell) (vmat (ofZv h) rcell) delta.
(* the angles are either exactly 0 (a two-fold axis of the lattice) or at least limit *)
Definition clear_cut (cell : mat) (limit : R) : Prop := forall U h delta, axis_angle cell U h delta -> delta = 0 \/ limit <= delta.

(* the documented primitive cells of the lattices with more than one two-fold axis; the conditions
   on the parameters exclude the cells of a lattice of higher symmetry *)
Inductive standard : string -> mat -> Prop :=
| st_cub a : 0 < a -> standard "CUB" (SC_CUB a)
| st_fcc a : 0 < a -> standard "FCC" (SC_FCC a)
| st_bcc a : 0 < a -> standard "BCC" (SC_BCC a)
| st_hex a c : 0 < a -> 0 < c -> standard "HEX" (SC_HEX a c)
| st_tet a c : 0 < a -> 0 < c -> a <> c -> standard "TET" (SC_TET a c)
| st_bct a c : 0 < a -> 0 < c -> a <> c -> c <> sqrt 2 * a -> standard "BCT" (SC_BCT a c)
| st_rhl a alpha m : 0 < a -> 0 < alpha < 120 -> alpha <> 60 -> alpha <> 90 -> cos (alpha * PI / 180) <> - (1 / 3) ->
    SC_RHL a alpha = Ok m -> standard "RHL" m
| st_orc a b c : 0 < a -> 0 < b -> 0 < c -> a <> b -> a <> c -> b <> c -> standard "ORC" (SC_ORC a b c)
| st_orcc a b c : 0 < a -> 0 < b -> 0 < c -> a <> b -> a <> sqrt 3 * b -> b <> sqrt 3 * a -> standard "ORCC" (SC_ORCC a b c)
| st_orcf a b c : 0 < a -> 0 < b -> 0 < c -> a <> b -> a <> c -> b <> c -> standard "ORCF" (SC_ORCF a b c)
| st_orci a b c : 0 < a -> 0 < b -> 0 < c -> a <> b -> a <> c -> b <> c -> standard "ORCI" (SC_ORCI a b c).

(* ---------------- lemmas ---------------- *)
Lemma clear_cut_delta cell r limit : get_reciprocal cell = Ok r -> clear_cut cell limit ->
  forall U h, In U (miller 2) -> In h (miller 2) -> zeven (U, h) = true -> axis_delta cell r U h = 0 \/ limit <= axis_delta cell r U h.
Proof.
  intros R C U h HU Hh E. apply (C U h). apply in_miller in HU, Hh; try lia. split; [exact HU|]. split; [exact Hh|].
  unfold zeven in E; cbn [fst snd] in E. apply Z.eqb_eq in E. split; [exact E|]. exists r.
  pose proof (reciprocal_dual _ _ R) as D. split; [exact D|]. apply atan_line_angle.
  rewrite (dual_dot _ _ _ _ D), ofZv_dot. intros Q. apply Rmult_integral in Q. pose proof PI_RGT_0. destruct Q as [Q|Q]; [lra|].
  apply eq_IZR in Q. rewrite Q in E. discriminate.
Qed.
Lemma metric_det cell : det (metric cell) = det cell * det cell.
Proof. unfold metric. rewrite det_mmul, det_tr. reflexivity. Qed.
Lemma recip_exists cell : det cell <> 0 -> exists r, get_reciprocal cell = Ok r.
Proof.
  intros D. exists (mscale (2 * PI) (tr (minv_total cell))). apply reciprocal_unique; auto.
  assert (E : mmul (tr (minv_total cell)) (tr cell) = mid).
  { rewrite <- tr_mmul, minv_r by auto. reflexivity. }
  replace (mmul (mscale (2 * PI) (tr (minv_total cell))) (tr cell)) with (mscale (2 * PI) (mmul (tr (minv_total cell)) (tr cell))).
  - rewrite E. reflexivity.
  - generalize (2 * PI) (tr (minv_total cell)) (tr cell). clear. vring.
Qed.

(* metrics of the families *)
Definition sym6 (a b c d e f : Z) : zmat := Zm a f e f b d e d c.
Record family := Family { f_gs : list zmat; f_nz : list (list Z); f_us : list zvec; f_name : string }.
Definition family_ok (f : family) : bool :=
  let gs := f_gs f in let us := f_us f in
  all_decided (f_nz f) gs && forallb (fun p => zvec_eqb (fst p) (snd p)) (combine (zdedup (exact_us (zero_pair gs))) us)
  && Nat.eqb (length (zdedup (exact_us (zero_pair gs)))) (length us) && known_angles gs us
  && comparable gs (ztet_xy (zangles gs us) us)
  && match zchecks (zangles gs us) us (length_le gs) with Ok (Some s) => String.eqb s (f_name f) | _ => false end.
Lemma same_list : forall l m, length l = length m -> forallb (fun p => zvec_eqb (fst p) (snd p)) (combine l m) = true -> l = m.
Proof.
  induction l as [|a l IH]; intros [|b m] L H; cbn in *; try discriminate; auto. apply andb_true_iff in H. destruct H as (H1 & H2).
  apply zvec_eqb_true in H1. subst. f_equal. apply IH; auto.
Qed.
Lemma family_run f ps spglib cell0 cell tol nn limit : family_ok f = true ->
  lepage_cell spglib cell0 nn = Ok cell -> det (metric cell) <> 0 -> 0 < limit -> 0 < Rabs tol <= 1 -> clear_cut cell limit ->
  metric cell = lin ps (f_gs f) -> Forall (fun p => 0 < p) ps -> length ps = length (f_gs f) -> Forall (fun n => comb ps n <> 0) (f_nz f) ->
  lepage spglib cell0 tol nn limit = Ok (f_name f).
Proof.
  intros F C D L T CC M P LP NZ. unfold family_ok in F. rewrite !andb_true_iff in F. destruct F as (((((F1 & F2) & F3) & F4) & F5) & F6).
  apply Nat.eqb_eq in F3. pose proof (same_list _ _ F3 F2) as U.
  assert (D' : det cell <> 0) by (intros Z; apply D; rewrite metric_det, Z; ring).
  destruct (recip_exists cell D') as (r & R).
  eapply (run_family ps (f_gs f) (f_nz f) (f_us f)); eauto using clear_cut_delta.
  destruct (zchecks _ _ _) as [[s|]|]; try discriminate. apply String.eqb_eq in F6. subst s. reflexivity.
Qed.

Definition fam_cub := Family [sym6 1 1 1 0 0 0] [] [Zv 0 0 1; Zv 0 1 (-1); Zv 0 1 1; Zv 0 1 0; Zv 1 (-1) 0; Zv 1 0 (-1); Zv 1 0 1; Zv 1 1 0; Zv 1 0 0] "CUB".
Definition fam_fcc := Family [sym6 2 2 2 1 1 1] [] [Zv 0 0 1; Zv 0 1 (-1); Zv 0 1 0; Zv 1 (-1) (-1); Zv 1 (-1) 0; Zv 1 (-1) 1; Zv 1 0 (-1); Zv 1 0 0; Zv 1 1 (-1)] "FCC".
Definition fam_bcc := Family [sym6 3 3 3 (-1) (-1) (-1)] [] [Zv 0 1 (-1); Zv 0 1 1; Zv 1 (-1) 0; Zv 1 0 (-1); Zv 1 0 1; Zv 1 1 0; Zv 1 1 2; Zv 1 2 1; Zv 2 1 1] "BCC".
Definition fam_hex := Family [sym6 2 2 0 0 0 (-1); sym6 0 0 1 0 0 0] [] [Zv 0 0 1; Zv 0 1 0; Zv 1 (-1) 0; Zv 1 0 0; Zv 1 1 0; Zv 1 2 0; Zv 2 1 0] "HEX".
Definition fam_tet := Family [sym6 1 1 0 0 0 0; sym6 0 0 1 0 0 0] [[1; -1]%Z] [Zv 0 0 1; Zv 0 1 0; Zv 1 (-1) 0; Zv 1 1 0; Zv 1 0 0] "TET".
Definition fam_bct := Family [sym6 2 2 2 0 0 (-2); sym6 1 1 1 (-1) (-1) 1] [[1; -1]%Z; [2; -1]%Z] [Zv 0 1 1; Zv 1 (-1) 0; Zv 1 0 1; Zv 1 1 0; Zv 1 1 2] "BCT".
Definition fam_rhl := Family [sym6 2 2 2 (-1) (-1) (-1); sym6 1 1 1 1 1 1] [[1; -4]%Z; [1; -1]%Z; [4; -1]%Z] [Zv 0 1 (-1); Zv 1 (-1) 0; Zv 1 0 (-1)] "RHL".
Definition fam_orc := Family [sym6 1 0 0 0 0 0; sym6 0 1 0 0 0 0; sym6 0 0 1 0 0 0] [[1; -1; 0]%Z; [1; 0; -1]%Z; [0; 1; -1]%Z] [Zv 0 0 1; Zv 0 1 0; Zv 1 0 0] "ORC".
Definition fam_orcc := Family [sym6 1 1 0 0 0 1; sym6 1 1 0 0 0 (-1); sym6 0 0 1 0 0 0] [[1; -1; 0]%Z; [3; -1; 0]%Z; [1; -3; 0]%Z] [Zv 0 0 1; Zv 1 (-1) 0; Zv 1 1 0] "ORCC".
Definition fam_orcf := Family [sym6 0 1 1 1 0 0; sym6 1 0 1 0 1 0; sym6 1 1 0 0 0 1] [[1; -1; 0]%Z; [1; 0; -1]%Z; [0; 1; -1]%Z] [Zv 1 (-1) (-1); Zv 1 (-1) 1; Zv 1 1 (-1)] "ORCF".
Definition fam_orci := Family [sym6 1 1 1 1 (-1) (-1); sym6 1 1 1 (-1) 1 (-1); sym6 1 1 1 (-1) (-1) 1] [[1; -1; 0]%Z; [1; 0; -1]%Z; [0; 1; -1]%Z] [Zv 0 1 1; Zv 1 0 1; Zv 1 1 0] "ORCI".
Definition families := [fam_cub; fam_fcc; fam_bcc; fam_hex; fam_tet; fam_bct; fam_rhl; fam_orc; fam_orcc; fam_orcf; fam_orci].
Lemma families_ok : forallb family_ok families = true.
Proof. vm_compute. reflexivity. Qed.
Lemma family_in f : In f families -> family_ok f = true.
Proof. intros H. pose proof families_ok as F. rewrite forallb_forall in F. auto. Qed.
Lemma det_lin cell m : copy_of cell m -> det m <> 0 -> det (metric cell) <> 0.
Proof. intros C D Z. unfold metric in Z. rewrite C, det_mmul, det_tr in Z. apply Rmult_integral in Z. tauto. Qed.
Lemma cos_eq x y : 0 <= x <= PI -> 0 <= y <= PI -> cos x = cos y -> x = y.
Proof. intros X Y E. rewrite <- (acos_cos x), <- (acos_cos y) by auto. rewrite E. reflexivity. Qed.
Lemma rhl_metric a al m : SC_RHL a al = Ok m -> let co := cos (al * PI / 180) in
  mmul m (tr m) = lin [a * a * (1 - co) / 3; a * a * (1 + 2 * co) / 3] (f_gs fam_rhl).
Proof.
  intros E. unfold SC_RHL in E. cbv zeta in E. destruct (Reqb_spec (cos (al * TORADIANS / 2)) 0) as [Z|Z]; [discriminate|].
  unfold py_sqrt in E. destruct (Rltb_spec (1 - cos (al * TORADIANS) * cos (al * TORADIANS) / (cos (al * TORADIANS / 2) * cos (al * TORADIANS / 2))) 0) as [N|N]; [discriminate|].
  cbn [bind] in E. injection E as <-. cbv zeta. replace (al * PI / 180) with (al * TORADIANS) by (unfold TORADIANS; field).
  assert (H : cos (al * TORADIANS) = 2 * (cos (al * TORADIANS / 2) * cos (al * TORADIANS / 2)) - 1).
  { replace (al * TORADIANS) with (2 * (al * TORADIANS / 2)) at 1 by field. rewrite cos_2a_cos. ring. }
  pose proof (sin2_cos2 (al * TORADIANS / 2)) as SC. unfold Rsqr in SC.
  assert (RT := sqrt_sqrt _ (Rnot_lt_le _ _ N)). set (rt := sqrt _) in *. clearbody rt.
  set (co := cos (al * TORADIANS)) in *. set (ch := cos (al * TORADIANS / 2)) in *. set (sh := sin (al * TORADIANS / 2)) in *. clearbody co ch sh.
  cbn [lin f_gs fam_rhl]. unfold madd, mzero, ofZ, sym6. vunfold.
  assert (S2 : sh * sh = 1 - ch * ch) by lra.
  vcomp.
  - transitivity (a * a * (ch * ch + sh * sh)); [ring|]. rewrite S2. field.
  - transitivity (a * a * (ch * ch - sh * sh)); [ring|]. rewrite S2, H. field.
  - field. auto.
  - transitivity (a * a * (ch * ch - sh * sh)); [ring|]. rewrite S2, H. field.
  - transitivity (a * a * (ch * ch + sh * sh)); [ring|]. rewrite S2. field.
  - field. auto.
  - field. auto.
  - field. auto.
  - transitivity (a * a * (co * co / (ch * ch) + rt * rt)); [field; auto|]. rewrite RT. field. auto.
Qed.
Lemma sq_neq a b : 0 < a -> 0 < b -> a <> b -> a * a <> b * b.
Proof. intros A B N E. apply N. nra. Qed.

(* every documented primitive cell has the metric of one of the families *)
Lemma standard_family name m : standard name m -> exists f ps, In f families /\ f_name f = name /\ det m <> 0 /\
  mmul m (tr m) = lin ps (f_gs f) /\ Forall (fun p => 0 < p) ps /\ length ps = length (f_gs f) /\ Forall (fun n => comb ps n <> 0) (f_nz f).
Proof.
  intros S.
  assert (GO : forall f ps, In f families -> det m <> 0 -> mmul m (tr m) = lin ps (f_gs f) -> Forall (fun p => 0 < p) ps -> length ps = length (f_gs f) ->
     Forall (fun n => comb ps n <> 0) (f_nz f) -> exists f' ps', In f' families /\ f_name f' = f_name f /\ det m <> 0 /\
     mmul m (tr m) = lin ps' (f_gs f') /\ Forall (fun p => 0 < p) ps' /\ length ps' = length (f_gs f') /\ Forall (fun n => comb ps' n <> 0) (f_nz f')).
  { intros f ps I D MM P LP NZ. exists f, ps. auto 10. }
  assert (Q : forall a, 0 < a -> 0 < a * a / 4) by (intros; nra). assert (Q1 : forall a, 0 < a -> 0 < a * a) by (intros; nra).
  destruct S as [a A|a A|a A|a c A Cc|a c A Cc N1|a c A Cc N1 N2|a al m A AL N1 N2 N3 E|a b c A B Cc N1 N2 N3|a b c A B Cc N1 N2 N3|a b c A B Cc N1 N2 N3|a b c A B Cc N1 N2 N3].
  - apply (GO fam_cub [a * a]); [cbn; tauto| | |repeat constructor; auto|reflexivity|constructor].
    + unfold SC_CUB. vunfold. pose proof (Rmult_lt_0_compat _ _ A (Q1 a A)). intros Z. lra.
    + cbn [lin f_gs fam_cub]. unfold madd, mzero, SC_CUB, ofZ, sym6. vunfold. vcomp; ring.
  - apply (GO fam_fcc [a * a / 4]); [cbn; tauto| | |repeat constructor; auto|reflexivity|constructor].
    + unfold SC_FCC. vunfold. pose proof (Rmult_lt_0_compat _ _ A (Q1 a A)). intros Z. lra.
    + cbn [lin f_gs fam_fcc]. unfold madd, mzero, SC_FCC, ofZ, sym6. vunfold. vcomp; field.
  - apply (GO fam_bcc [a * a / 4]); [cbn; tauto| | |repeat constructor; auto|reflexivity|constructor].
    + unfold SC_BCC. vunfold. pose proof (Rmult_lt_0_compat _ _ A (Q1 a A)). intros Z. lra.
    + cbn [lin f_gs fam_bcc]. unfold madd, mzero, SC_BCC, ofZ, sym6. vunfold. vcomp; field.
  - pose proof (sqrt_sqrt 3 ltac:(lra)) as S3. pose proof (sqrt_lt_R0 3 ltac:(lra)) as P3.
    apply (GO fam_hex [a * a / 2; c * c]); [cbn; tauto| | |repeat constructor; auto; specialize (Q1 a A); lra|reflexivity|constructor].
    + unfold SC_HEX. vunfold. assert (0 < a * a * sqrt 3 * c) by (repeat apply Rmult_lt_0_compat; auto). intros Z. lra.
    + cbn [lin f_gs fam_hex]. unfold madd, mzero, SC_HEX, ofZ, sym6. vunfold. set (s := sqrt 3) in *. clearbody s.
      vcomp; apply Rminus_diag_uniq; field_simplify; try (replace (s ^ 2) with 3 by (rewrite <- S3; ring)); field.
  - apply (GO fam_tet [a * a; c * c]); [cbn; tauto| | |repeat constructor; auto|reflexivity|].
    + unfold SC_TET. vunfold. assert (0 < a * a * c) by (repeat apply Rmult_lt_0_compat; auto). intros Z. lra.
    + cbn [lin f_gs fam_tet]. unfold madd, mzero, SC_TET, ofZ, sym6. vunfold. vcomp; ring.
    + pose proof (sq_neq a c A Cc N1). repeat constructor; cbn [comb]; lra.
  - apply (GO fam_bct [a * a / 4; c * c / 4]); [cbn; tauto| | |repeat constructor; auto|reflexivity|].
    + unfold SC_BCT. vunfold. assert (0 < a * a * c) by (repeat apply Rmult_lt_0_compat; auto). intros Z. lra.
    + cbn [lin f_gs fam_bct]. unfold madd, mzero, SC_BCT, ofZ, sym6. vunfold. vcomp; field.
    + pose proof (sq_neq a c A Cc N1). pose proof (sqrt_sqrt 2 ltac:(lra)) as S2. pose proof (sqrt_lt_R0 2 ltac:(lra)) as P2.
      pose proof (sq_neq c (sqrt 2 * a) Cc ltac:(nra) N2) as X. replace (sqrt 2 * a * (sqrt 2 * a)) with (sqrt 2 * sqrt 2 * (a * a)) in X by ring. rewrite S2 in X.
      repeat constructor; cbn [comb]; lra.
  - pose proof (rhl_metric a al m E) as MM. cbv zeta in MM. pose proof PI_RGT_0 as P0.
    assert (X0 : 0 <= al * PI / 180 <= PI) by (split; nra).
    assert (C0 : cos (al * PI / 180) < 1) by (rewrite <- cos_0; apply cos_decreasing_1; nra).
    assert (C1 : - (1 / 2) < cos (al * PI / 180)).
    { replace (- (1 / 2)) with (cos (2 * (PI / 3))) by (rewrite cos_2PI3; lra). apply cos_decreasing_1; nra. }
    assert (C2 : cos (al * PI / 180) <> 1 / 2).
    { intros H. rewrite <- cos_PI3 in H. apply cos_eq in H; [|auto|lra]. apply N1. nra. }
    assert (C3 : cos (al * PI / 180) <> 0).
    { intros H. rewrite <- cos_PI2 in H. apply cos_eq in H; [|auto|lra]. apply N2. nra. }
    set (co := cos (al * PI / 180)) in *. clearbody co. specialize (Q1 a A).
    apply (GO fam_rhl [a * a * (1 - co) / 3; a * a * (1 + 2 * co) / 3]); [cbn; tauto| |exact MM|repeat constructor; nra|reflexivity|].
    + intros Z. apply (f_equal det) in MM. rewrite det_mmul, Z, Rmult_0_l in MM. cbn [lin f_gs fam_rhl] in MM. unfold madd, mzero, ofZ, sym6 in MM. revert MM. vunfold. intros MM.
      assert (K : 0 < (a * a) * (a * a) * (a * a) * ((1 - co) * (1 - co) * (1 + 2 * co))) by (repeat apply Rmult_lt_0_compat; auto; lra). lra.
    + repeat constructor; cbn [comb].
      * intros Z. assert (W : a * a * (- (3) - 9 * co) = 0) by lra. apply Rmult_integral in W. destruct W; [lra|]. apply N3. lra.
      * intros Z. assert (W : a * a * (3 * co) = 0) by lra. apply Rmult_integral in W. destruct W; [lra|]. apply C3. lra.
      * intros Z. assert (W : a * a * (3 - 6 * co) = 0) by lra. apply Rmult_integral in W. destruct W; [lra|]. apply C2. lra.
  - apply (GO fam_orc [a * a; b * b; c * c]); [cbn; tauto| | |repeat constructor; auto|reflexivity|].
    + unfold SC_ORC. vunfold. assert (0 < a * b * c) by (repeat apply Rmult_lt_0_compat; auto). intros Z. lra.
    + cbn [lin f_gs fam_orc]. unfold madd, mzero, SC_ORC, ofZ, sym6. vunfold. vcomp; ring.
    + pose proof (sq_neq a b A B N1). pose proof (sq_neq a c A Cc N2). pose proof (sq_neq b c B Cc N3). repeat constructor; cbn [comb]; lra.
  - apply (GO fam_orcc [a * a / 4; b * b / 4; c * c]); [cbn; tauto| | |repeat constructor; auto|reflexivity|].
    + unfold SC_ORCC. vunfold. assert (0 < a * b * c) by (repeat apply Rmult_lt_0_compat; auto). intros Z. lra.
    + cbn [lin f_gs fam_orcc]. unfold madd, mzero, SC_ORCC, ofZ, sym6. vunfold. vcomp; field.
    + pose proof (sq_neq a b A B N1). pose proof (sqrt_sqrt 3 ltac:(lra)) as S3. pose proof (sqrt_lt_R0 3 ltac:(lra)) as P3.
      pose proof (sq_neq a (sqrt 3 * b) A ltac:(nra) N2) as X. replace (sqrt 3 * b * (sqrt 3 * b)) with (sqrt 3 * sqrt 3 * (b * b)) in X by ring.
      pose proof (sq_neq b (sqrt 3 * a) B ltac:(nra) N3) as Y. replace (sqrt 3 * a * (sqrt 3 * a)) with (sqrt 3 * sqrt 3 * (a * a)) in Y by ring. rewrite S3 in X, Y.
      repeat constructor; cbn [comb]; lra.
  - apply (GO fam_orcf [a * a / 4; b * b / 4; c * c / 4]); [cbn; tauto| | |repeat constructor; auto|reflexivity|].
    + unfold SC_ORCF. vunfold. assert (0 < a * b * c) by (repeat apply Rmult_lt_0_compat; auto). intros Z. lra.
    + cbn [lin f_gs fam_orcf]. unfold madd, mzero, SC_ORCF, ofZ, sym6. vunfold. vcomp; field.
    + pose proof (sq_neq a b A B N1). pose proof (sq_neq a c A Cc N2). pose proof (sq_neq b c B Cc N3). repeat constructor; cbn [comb]; lra.
  - apply (GO fam_orci [a * a / 4; b * b / 4; c * c / 4]); [cbn; tauto| | |repeat constructor; auto|reflexivity|].
    + unfold SC_ORCI. vunfold. assert (0 < a * b * c) by (repeat apply Rmult_lt_0_compat; auto). intros Z. lra.
    + cbn [lin f_gs fam_orci]. unfold madd, mzero, SC_ORCI, ofZ, sym6. vunfold. vcomp; field.
    + pose proof (sq_neq a b A B N1). pose proof (sq_neq a c A Cc N2). pose proof (sq_neq b c B Cc N3). repeat constructor; cbn [comb]; lra.
Qed.

(* lepage names the lattice of every rotated copy of the documented primitive cells, whether or not the
   Niggli reduction (whose result is the cell examined) is used *)
Theorem C60_identifies : forall spglib given cell name m tol no_niggli limit,
  lepage_cell spglib given no_niggli = Ok cell -> standard name m -> copy_of cell m ->
  0 < limit -> clear_cut cell limit -> 0 < Rabs tol <= 1 ->
  lepage spglib given tol no_niggli limit = Ok name.
Proof.
  intros l given cell name m tol nn limit C S M L CC T.
  destruct (standard_family name m S) as (f & ps & I & <- & D & MM & P & LP & NZ).
  apply (family_run f ps l given cell tol nn limit); auto using family_in.
  - apply (det_lin cell m); auto.
  - unfold metric. rewrite M. exact MM.
Qed.
Print Assumptions C60_identifies.

(* ---------------- examples: cells with integer components ---------------- *)
Lemma axis_angle_delta cell r U h delta : get_reciprocal cell = Ok r -> axis_angle cell U h delta ->
  In U (miller 2) /\ In h (miller 2) /\ zeven (U, h) = true /\ delta = axis_delta cell r U h.
Proof.
  intros R (SU & Sh & E & rc & D & L). repeat split; try (apply in_miller; [lia|assumption]).
  - unfold zeven; cbn [fst snd]. apply Z.eqb_eq. exact E.
  - assert (D0 : det cell <> 0).
    { intros Z. apply (f_equal det) in D. rewrite det_mmul, det_tr, Z, Rmult_0_r in D. pose proof PI_RGT_0 as P.
      assert (Q : det (mscale (2 * PI) mid) = 8 * (PI * PI * PI)) by (vunfold; ring). rewrite Q in D.
      pose proof (Rmult_lt_0_compat _ _ (Rmult_lt_0_compat _ _ P P) P). lra. }
    pose proof (reciprocal_unique cell rc D0 D) as U2. assert (rc = r) as -> by congruence.
    apply (line_angle_unique _ _ _ _ L). apply atan_line_angle. rewrite (dual_dot _ _ _ _ D), ofZv_dot. intros Q. apply Rmult_integral in Q.
    pose proof PI_RGT_0. destruct Q as [Q|Q]; [lra|]. apply eq_IZR in Q. unfold zdot in Q. rewrite Q in E. discriminate.
Qed.
Lemma separated_clear_cut m : det (ofZ m) <> 0 -> separated m = true -> clear_cut (ofZ m) 2.
Proof.
  intros D S U h delta A. destruct (axis_angle_delta _ _ _ _ _ (zrec_recip m D) A) as (HU & Hh & E & ->).
  unfold separated in S. rewrite forallb_forall in S.
  assert (I : In (U, h) pairs22) by (unfold pairs22; apply in_flat_map; exists U; split; auto; apply in_map_iff; eauto).
  specialize (S _ I). rewrite E in S. cbn [negb orb] in S. destruct (zperp m (U, h)) eqn:P; cbn [orb] in S.
  - left. apply delta_zero; auto.
  - right. left. apply delta_far; auto.
Qed.
Ltac integer_case st := 
  match goal with |- lepage _ (ofZ ?m) _ _ _ = Ok ?name =>
    assert (D : det (ofZ m) <> 0) by (unfold ofZ; vunfold; lra);
    apply (C60_identifies None (ofZ m) (ofZ m) name st); [reflexivity| |unfold copy_of, ofZ, SC_CUB, SC_FCC, SC_BCC, SC_TET, SC_BCT, SC_ORC, SC_ORCC, SC_ORCF, SC_ORCI; vunfold; vcomp; field|lra|
      apply separated_clear_cut; [exact D|vm_compute; reflexivity]|rewrite Rabs_right; lra] end.
Example identifies_cub : lepage None (ofZ (Zm 1 0 0 0 1 0 0 0 1)) (1 / 10000) true 2 = Ok "CUB"%string.
Proof. integer_case (SC_CUB 1). apply st_cub; lra. Qed.
Example identifies_fcc : lepage None (ofZ (Zm 0 1 1 1 0 1 1 1 0)) (1 / 10000) true 2 = Ok "FCC"%string.
Proof. integer_case (SC_FCC 2). apply st_fcc; lra. Qed.
Example identifies_bcc : lepage None (ofZ (Zm (-1) 1 1 1 (-1) 1 1 1 (-1))) (1 / 10000) true 2 = Ok "BCC"%string.
Proof. integer_case (SC_BCC 2). apply st_bcc; lra. Qed.
Example identifies_tet : lepage None (ofZ (Zm 1 0 0 0 1 0 0 0 2)) (1 / 10000) true 2 = Ok "TET"%string.
Proof. integer_case (SC_TET 1 2). apply st_tet; lra. Qed.
Example identifies_bct : lepage None (ofZ (Zm (-1) 1 2 1 (-1) 2 1 1 (-2))) (1 / 10000) true 2 = Ok "BCT"%string.
Proof.
  integer_case (SC_BCT 2 4). apply st_bct; try lra. intros E. pose proof (sqrt_sqrt 2 ltac:(lra)). assert (sqrt 2 = 2) as S by lra. rewrite S in *. lra.
Qed.
Example identifies_orc : lepage None (ofZ (Zm 1 0 0 0 2 0 0 0 3)) (1 / 10000) true 2 = Ok "ORC"%string.
Proof. integer_case (SC_ORC 1 2 3). apply st_orc; lra. Qed.
Example identifies_orcc : lepage None (ofZ (Zm 1 (-2) 0 1 2 0 0 0 2)) (1 / 10000) true 2 = Ok "ORCC"%string.
Proof.
  integer_case (SC_ORCC 2 4 2). pose proof (sqrt_sqrt 3 ltac:(lra)). pose proof (sqrt_pos 3). apply st_orcc; try lra; intros E; nra.
Qed.
Example identifies_orcf : lepage None (ofZ (Zm 0 2 3 1 0 3 1 2 0)) (1 / 10000) true 2 = Ok "ORCF"%string.
Proof. integer_case (SC_ORCF 2 4 6). apply st_orcf; lra. Qed.
Example identifies_orci : lepage None (ofZ (Zm (-1) 2 3 1 (-2) 3 1 2 (-3))) (1 / 10000) true 2 = Ok "ORCI"%string.
Proof. integer_case (SC_ORCI 2 4 6). apply st_orci; lra. Qed.
(* hexagonal with a = sqrt 2 and c = sqrt 3, not in the documented orientation *)
Example identifies_hex : lepage None (ofZ (Zm 1 (-1) 0 0 1 (-1) 1 1 1)) (1 / 10000) true 2 = Ok "HEX"%string.
Proof.
  pose proof (sqrt_sqrt 2 ltac:(lra)) as S2. pose proof (sqrt_lt_R0 2 ltac:(lra)) as P2. pose proof (sqrt_sqrt 3 ltac:(lra)) as S3. pose proof (sqrt_lt_R0 3 ltac:(lra)) as P3.
  assert (D : det (ofZ (Zm 1 (-1) 0 0 1 (-1) 1 1 1)) <> 0) by (unfold ofZ; vunfold; lra).
  apply (C60_identifies None (ofZ (Zm 1 (-1) 0 0 1 (-1) 1 1 1)) (ofZ (Zm 1 (-1) 0 0 1 (-1) 1 1 1)) _ (SC_HEX (sqrt 2) (sqrt 3))); [reflexivity|apply st_hex; auto| |lra|
    apply separated_clear_cut; [exact D|vm_compute; reflexivity]|rewrite Rabs_right; lra].
  unfold copy_of, ofZ, SC_HEX. vunfold. set (s := sqrt 2) in *. set (t := sqrt 3) in *. clearbody s t.
  assert (S6 : s * s * (t * t) = 6) by (rewrite S2, S3; ring). vcomp; lra.
Qed.
(* rhombohedral with a = sqrt 6 and cos(alpha) = 5/6 *)
Example identifies_rhl : lepage None (ofZ (Zm 2 1 1 1 2 1 1 1 2)) (1 / 10000) true 2 = Ok "RHL"%string.
Proof.
  assert (D : det (ofZ (Zm 2 1 1 1 2 1 1 1 2)) <> 0) by (unfold ofZ; vunfold; lra). pose proof PI_RGT_0 as P0.
  assert (C : cos (acos (5 / 6) * 180 / PI * PI / 180) = 5 / 6).
  { replace (acos (5 / 6) * 180 / PI * PI / 180) with (acos (5 / 6)) by (field; lra). apply cos_acos. lra. }
  assert (B : 0 < acos (5 / 6) < PI / 3).
  { split.
    - apply acos_bound_lt. lra.
    - apply Rnot_le_lt. intros H. pose proof (acos_bound (5 / 6)) as [_ B2]. pose proof (cos_decr_1 (PI / 3) (acos (5 / 6)) ltac:(lra) ltac:(lra) ltac:(lra) B2 H) as K.
      rewrite cos_PI3, cos_acos in K by lra. lra. }
  assert (AL : 0 < acos (5 / 6) * 180 / PI < 60).
  { split; [apply Rdiv_lt_0_compat; lra|]. apply (Rmult_lt_reg_r PI); auto. unfold Rdiv. rewrite Rmult_assoc, Rinv_l by lra. lra. }
  pose proof (sqrt_sqrt 6 ltac:(lra)) as S6. pose proof (sqrt_lt_R0 6 ltac:(lra)) as P6.
  destruct (rhl_ok (sqrt 6) (acos (5 / 6) * 180 / PI)) as (m & M & _); [auto|lra|].
  apply (C60_identifies None (ofZ (Zm 2 1 1 1 2 1 1 1 2)) (ofZ (Zm 2 1 1 1 2 1 1 1 2)) _ m); [reflexivity| | |lra|
    apply separated_clear_cut; [exact D|vm_compute; reflexivity]|rewrite Rabs_right; lra].
  - apply (st_rhl (sqrt 6) (acos (5 / 6) * 180 / PI)); auto; try lra.
  - unfold copy_of. rewrite (rhl_metric _ _ _ M), C, S6. cbn [lin f_gs fam_rhl]. unfold madd, mzero, ofZ, sym6. vunfold. vcomp; field.
Qed.
