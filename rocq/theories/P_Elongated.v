(* P_Elongated.v : property C60, a tetragonal lattice that lepage calls orthorhombic. *)
From Verif Require Import Base M_Numerical M_Geometry M_Cell M_Niggli M_Voronoi M_ScExamples F_Voronoi F_Geometry M_Lepage F_Lepage F_LepageEx
  F_Bravais F_Angles F_Classify P_Lepage P_Bravais.
From Coq Require Import Permutation.
Open Scope R_scope.

(* ---------------- the run on the cell 1 x 1 x 15 ---------------- *)
Definition tall : zmat := Zm 1 0 0 0 1 0 0 0 15.
(* the angle of a direction and a plane is 0, atan (1/30), or more than 2 degrees *)
Definition tilted (p : zvec * zvec) : bool :=
  let t := ztimes (fst p) tall in let s := ztimes (snd p) (zrec tall) in
  (zdot t s * zdot t s =? 900 * zdot (zcross t s) (zcross t s))%Z.
Definition apart (p : zvec * zvec) : bool :=
  let t := ztimes (fst p) tall in let s := ztimes (snd p) (zrec tall) in
  (zdot t s * zdot t s <=? 484 * zdot (zcross t s) (zcross t s))%Z.
Definition tall_ok : bool := forallb (fun p => negb (zeven p) || zperp tall p || tilted p || apart p) pairs22.
Definition tilt : R := atan (1 / 30) * TODEGREES.

Lemma tan_2deg_22 : PI / 90 < atan (1 / 22).
Proof.
  pose proof PI_4 as P4. pose proof PI_RGT_0 as P0. set (x := PI / 90).
  assert (X : 0 < x <= 4 / 90) by (unfold x; lra).
  assert (S1 : sin x < x) by (apply sin_lt_x; lra).
  assert (S0 : 0 < sin x) by (apply sin_gt_0; unfold x in *; lra).
  assert (S2 : sin (x / 2) < x / 2) by (apply sin_lt_x; lra).
  assert (S3 : 0 < sin (x / 2)) by (apply sin_gt_0; unfold x in *; lra).
  assert (C : cos x = 1 - 2 * sin (x / 2) * sin (x / 2)).
  { rewrite <- cos_2a_sin. f_equal. field. }
  assert (C2 : 998 / 1000 < cos x) by (rewrite C; nra).
  assert (T : tan x < 1 / 22).
  { unfold tan. apply (Rmult_lt_reg_r (cos x)); [lra|]. unfold Rdiv.
    rewrite Rmult_assoc, Rinv_l by lra. lra. }
  rewrite <- (atan_tan x) by (unfold x in *; lra). apply atan_increasing. exact T.
Qed.
Lemma degrees_pos : 0 < TODEGREES.
Proof. unfold TODEGREES. pose proof PI_RGT_0. apply Rdiv_lt_0_compat; lra. Qed.
Lemma atan_mean x : 0 < x -> exists c, 0 < c < x /\ atan x = x / (1 + c * c).
Proof.
  intros X. destruct (MVT_cor2 atan (fun y => / (1 + y ^ 2)) 0 x X) as (c & E & C).
  - intros c _. apply derivable_pt_lim_atan.
  - exists c. split; auto. rewrite atan_0 in E. replace (1 + c * c) with (1 + c ^ 2) by ring. unfold Rdiv. lra.
Qed.
Lemma tilt_bounds : 1 < tilt < 2.
Proof.
  pose proof PI_4 as P4. pose proof PI_RGT_0 as P0. pose proof degrees_pos as DP.
  assert (K : forall x, x * (PI / 180) * TODEGREES = x) by (intros; unfold TODEGREES; field; lra).
  assert (P3 : 3 < PI) by (pose proof PI2_3_2; lra).
  destruct (atan_mean (1 / 30)) as (c & C & E); [lra|].
  assert (B : 1 / 31 < atan (1 / 30) < 1 / 30).
  { rewrite E. assert (1 < 1 + c * c < 31 / 30) by nra.
    split; apply (Rmult_lt_reg_r (1 + c * c)); try lra; unfold Rdiv; rewrite ?Rmult_assoc, ?Rinv_l by lra; lra. }
  split; unfold tilt.
  - apply Rle_lt_trans with (1 * (PI / 180) * TODEGREES); [rewrite K; lra|]. apply Rmult_lt_compat_r; auto. lra.
  - apply Rlt_le_trans with (2 * (PI / 180) * TODEGREES); [|rewrite K; lra]. apply Rmult_lt_compat_r; auto. lra.
Qed.

Lemma tall_det : det (ofZ tall) <> 0.
Proof. unfold tall, ofZ. vunfold. lra. Qed.
Definition rtall : mat := mscale (2 * PI / det (ofZ tall)) (ofZ (zrec tall)).
(* the ratio in axis_delta is determined by its square *)
Lemma ratio_sq (n d k : R) : 0 <= n -> 0 < d -> 0 < k -> d * d = k * k * (n * n) -> n / d = 1 / k.
Proof.
  intros N D K E. assert (d = k * n).
  { apply Rsqr_inj; try nra. unfold Rsqr. rewrite E. ring. }
  subst d. assert (n <> 0) by (intros ->; lra). field. split; lra.
Qed.
Lemma delta_tilted U h : zeven (U, h) = true -> tilted (U, h) = true -> axis_delta (ofZ tall) rtall U h = tilt.
Proof.
  intros E F. pose proof (even_nonzero tall tall_det U h E) as NZ. unfold rtall. rewrite ratio by (auto using tall_det). unfold tilted in F; cbn [fst snd] in F.
  set (t := ztimes U tall) in *. set (s := ztimes h (zrec tall)) in *. apply Z.eqb_eq in F.
  apply (f_equal IZR) in F. rewrite !mult_IZR in F. rewrite <- (ofZv_dot (zcross t s)) in F.
  assert (Hd : 0 < Rabs (IZR (zdot t s))) by (apply Rabs_pos_lt, not_0_IZR; auto).
  unfold tilt. f_equal. f_equal. apply ratio_sq; auto; try lra.
  - apply sqrt_pos.
  - unfold norm. rewrite sqrt_sqrt by (vunfold; nra). rewrite <- Rabs_mult, Rabs_right by nra. lra.
Qed.
Lemma delta_apart U h : zeven (U, h) = true -> apart (U, h) = true -> 2 < axis_delta (ofZ tall) rtall U h.
Proof.
  intros E F. pose proof (even_nonzero tall tall_det U h E) as NZ. unfold rtall. rewrite ratio by (auto using tall_det). unfold apart in F; cbn [fst snd] in F.
  set (t := ztimes U tall) in *. set (s := ztimes h (zrec tall)) in *. apply Z.leb_le in F.
  apply IZR_le in F. rewrite !mult_IZR in F. rewrite <- (ofZv_dot (zcross t s)) in F.
  assert (Hd : 0 < Rabs (IZR (zdot t s))) by (apply Rabs_pos_lt, not_0_IZR; auto).
  assert (Q : 1 / 22 <= norm (ofZv (zcross t s)) / Rabs (IZR (zdot t s))).
  { apply (Rmult_le_reg_r (Rabs (IZR (zdot t s)))); [auto|].
    replace (norm (ofZv (zcross t s)) / Rabs (IZR (zdot t s)) * Rabs (IZR (zdot t s)))
      with (norm (ofZv (zcross t s))) by (field; lra).
    unfold norm. apply Rsqr_incr_0.
    - rewrite Rsqr_sqrt by (vunfold; nra). unfold Rsqr.
      replace (1 / 22 * Rabs (IZR (zdot t s)) * (1 / 22 * Rabs (IZR (zdot t s))))
        with (1 / 484 * (Rabs (IZR (zdot t s)) * Rabs (IZR (zdot t s)))) by field.
      rewrite <- Rabs_mult, Rabs_right by nra. lra.
    - lra.
    - apply sqrt_pos. }
  assert (A : PI / 90 < atan (norm (ofZv (zcross t s)) / Rabs (IZR (zdot t s)))).
  { apply Rlt_le_trans with (atan (1 / 22)); [apply tan_2deg_22|].
    destruct Q as [Q|Q]; [left; apply atan_increasing; auto|rewrite <- Q; lra]. }
  pose proof PI_RGT_0. pose proof degrees_pos. replace 2 with (PI / 90 * TODEGREES) by (unfold TODEGREES; field; lra).
  apply Rmult_lt_compat_r; auto.
Qed.

(* the axes found, sorted and without duplicates; the flag tells which angle *)
Definition axis2 (a : zvec * bool) : axis := Axis (fst a) (ax_t (axis0 tall (fst a))) (if snd a then tilt else 0).
Definition mark (p : zvec * zvec) : list (zvec * bool) :=
  if zeven p then if zperp tall p then [(fst p, false)] else if tilted p then [(fst p, true)] else [] else [].
Fixpoint zdedup2 (l : list (zvec * bool)) : list (zvec * bool) :=
  match l with [] => [] | a :: l' => if existsb (fun b => related (fst a) (fst b)) l' then zdedup2 l' else (zhalve (fst a), snd a) :: zdedup2 l' end.
Definition zsorted (l : list (zvec * bool)) := filter (fun a => negb (snd a)) l ++ filter snd l.

Lemma cands_tall : flat_map (cand (ofZ tall) rtall 2) pairs22 = map axis2 (flat_map mark pairs22).
Proof.
  assert (S : tall_ok = true) by (vm_compute; reflexivity). unfold tall_ok in S. rewrite forallb_forall in S. revert S.
  generalize pairs22. pose proof tilt_bounds as TB. induction l as [|[U h] l IH]; intros S; [reflexivity|]. cbn [flat_map].
  rewrite map_app, <- IH by (intros; apply S; cbn; auto). f_equal. rewrite cand_eq; cbn [fst snd].
  specialize (S (U, h) (or_introl eq_refl)). unfold mark. change ((Z.abs (zdot U h) =? 2)%Z) with (zeven (U, h)).
  destruct (zeven (U, h)) eqn:E; cbn [negb orb andb] in *; [|reflexivity].
  destruct (zperp tall (U, h)) eqn:P; cbn [orb] in *.
  - pose proof (delta_zero tall tall_det U h E P) as Z. fold rtall in Z. rewrite Z. destruct (Rltb_spec 0 2); [|lra]. cbn [map fst].
    unfold ax, axis2, axis0; cbn [fst snd ax_t]. rewrite Z. reflexivity.
  - destruct (tilted (U, h)) eqn:T; cbn [orb] in *.
    + rewrite (delta_tilted U h E T). destruct (Rltb_spec tilt 2); [|lra]. cbn [map fst].
      unfold ax, axis2, axis0; cbn [fst snd ax_t]. rewrite (delta_tilted U h E T). reflexivity.
    + pose proof (delta_apart U h E S). destruct (Rltb_spec (axis_delta (ofZ tall) rtall U h) 2); [lra|reflexivity].
Qed.
Lemma delta2 a : ax_delta (axis2 a) = if snd a then tilt else 0.
Proof. reflexivity. Qed.
Lemma insert_low x l : snd x = false -> insert_by ax_delta (axis2 x) (map axis2 l) = axis2 x :: map axis2 l.
Proof.
  intros F. pose proof tilt_bounds. destruct l as [|y l]; [reflexivity|]. cbn [map insert_by]. rewrite !delta2, F.
  destruct (Rleb_spec 0 (if snd y then tilt else 0)) as [|N]; [reflexivity|]. exfalso. destruct (snd y); lra.
Qed.
Lemma insert_high x l1 l2 : snd x = true -> (forall a, In a l1 -> snd a = false) -> (forall a, In a l2 -> snd a = true) ->
  insert_by ax_delta (axis2 x) (map axis2 (l1 ++ l2)) = map axis2 (l1 ++ x :: l2).
Proof.
  intros F H1 H2. pose proof tilt_bounds. induction l1 as [|y l1 IH]; cbn [app map insert_by].
  - destruct l2 as [|y l2]; [reflexivity|]. cbn [map insert_by]. rewrite !delta2, F, (H2 y) by (cbn; auto).
    destruct (Rleb_spec tilt tilt); [reflexivity|lra].
  - rewrite !delta2, F, (H1 y) by (cbn; auto). destruct (Rleb_spec tilt 0); [lra|].
    f_equal. apply IH. intros; apply H1; cbn; auto.
Qed.
Lemma sort_tall l : sort_by ax_delta (map axis2 l) = map axis2 (zsorted l).
Proof.
  induction l as [|x l IH]; [reflexivity|]. unfold sort_by in *. cbn [map fold_right]. rewrite IH. unfold zsorted. cbn [filter].
  destruct (snd x) eqn:F; cbn [negb].
  - apply insert_high; auto; intros a Ha; apply filter_In in Ha; destruct Ha as (_ & Ha); auto. destruct (snd a); [discriminate|reflexivity].
  - apply insert_low; auto.
Qed.
Lemma dedup_tall l : dedup (map axis2 l) = map axis2 (zdedup2 l).
Proof.
  induction l as [|a l IH]; [reflexivity|]. cbn [map dedup zdedup2].
  assert (X : existsb (fun b => related (ax_U (axis2 a)) (ax_U b)) (map axis2 l) = existsb (fun b => related (fst a) (fst b)) l).
  { clear. cbn [ax_U axis2]. induction l as [|b l IH]; [reflexivity|]. cbn [existsb map]. rewrite IH. reflexivity. }
  rewrite X, IH. destruct (existsb _ l); [reflexivity|]. cbn [map]. f_equal.
  pose proof (halve_axis0 tall (fst a)) as HA. unfold halve in *. cbn [ax_U axis2 axis0] in *. unfold axis2; cbn [fst snd ax_t ax_delta].
  unfold zhalve. unfold axis0 in *. cbn [ax_t ax_delta ax_U] in *. unfold zhalve in HA. destruct (only_0_2 (fst a)); [|reflexivity].
  congruence.
Qed.
Definition tall_axes : list (zvec * bool) :=
  [(Zv 0 0 1, false); (Zv 1 (-1) 0, false); (Zv 1 1 0, false); (Zv 0 1 (-2), true); (Zv 0 1 0, true); (Zv 0 1 2, true);
   (Zv 1 0 (-2), true); (Zv 1 0 0, true); (Zv 1 0 2, true)].
Lemma axes_tall : lepage_axes (ofZ tall) 2 = Ok (map axis2 tall_axes).
Proof.
  unfold lepage_axes. rewrite zrec_recip by exact tall_det. cbn [bind]. fold rtall.
  rewrite candidates_ok by (apply reciprocal_dual; rewrite zrec_recip by exact tall_det; reflexivity).
  cbn [bind]. rewrite cands_tall, sort_tall, dedup_tall. apply f_equal, f_equal. vm_compute. reflexivity.
Qed.

(* a matching sort pairs every entry with an entry of the target *)
Lemma all_close_in tol : forall l m x, all_close l m tol = true -> In x l -> exists y, In y m /\ Rabs (x - y) < tol.
Proof.
  induction l as [|a l IH]; intros [|b m] x H I; cbn in *; try contradiction; try discriminate. apply andb_true_iff in H. destruct H as (H1 & H2).
  apply Rltb_true in H1. destruct I as [<-|I]; [exists b; auto|]. destruct (IH _ _ H2 I) as (y & Y & Z). exists y; auto.
Qed.
Lemma sort_r_in x l : In x (sort_r l) <-> In x l.
Proof.
  unfold sort_r, sort_by. induction l as [|a l IH]; cbn; [tauto|]. rewrite <- IH. generalize (fold_right (insert_by (fun x : R => x)) [] l).
  induction l0 as [|b l0 IH0]; cbn; [tauto|]. destruct (Rleb a b); cbn; [tauto|]. rewrite IH0. tauto.
Qed.
Lemma no_match sub target tol x : In x (concat sub) -> (forall y, In y (concat target) -> tol <= Rabs (x - y)) -> matches sub target tol = false.
Proof.
  intros I H. apply not_true_is_false. intros M. unfold matches in M. apply (all_close_in _ _ _ x) in M; [|apply sort_r_in; exact I].
  destruct M as (y & Y & L). apply (proj1 (sort_r_in _ _)) in Y. specialize (H y Y). lra.
Qed.

(* the angle of the c axis and the axis (0, 1, -2) *)
Lemma angle_c u v k : zdot (ztimes u tall) (ztimes u tall) = 225%Z -> zdot (ztimes v tall) (ztimes v tall) = 901%Z ->
  zdot (ztimes u tall) (ztimes v tall) = (-450)%Z -> k = axes_angle (axis2 (u, false)) (axis2 (v, true)) -> k = tilt.
Proof.
  intros A B C ->. unfold axes_angle, axis2, axis0; cbn [ax_t fst]. rewrite dot_scale_l, dot_scale_r. unfold norm.
  rewrite !ofZv_times, !ofZv_dot, A, B, C. assert (S : sqrt 225 = 15) by (replace 225 with (15 * 15) by ring; apply sqrt_square; lra). rewrite S.
  pose proof (sqrt_sqrt 901 ltac:(lra)) as Q. pose proof (sqrt_lt_R0 901 ltac:(lra)) as P. set (q := sqrt 901) in *.
  assert (Q2 : 30 < q) by nra.
  assert (E : / 15 * (/ q * -450) = - (30 / q)) by (field; lra). rewrite E.
  assert (L : 0 < 30 / q < 1).
  { split; [apply Rdiv_lt_0_compat; lra|]. apply (Rmult_lt_reg_r q); auto. unfold Rdiv. rewrite Rmult_assoc, Rinv_l by lra. lra. }
  unfold clip. rewrite (Rmax_left (- (30 / q)) (-1)) by lra. rewrite (Rmin_left (- (30 / q)) 1) by lra. rewrite Rabs_Ropp, Rabs_right by lra.
  unfold tilt. f_equal. rewrite acos_atan by lra. f_equal.
  replace (1 - (30 / q)²) with ((/ q) * (/ q)).
  - rewrite sqrt_square; [field; lra|]. left. apply Rinv_0_lt_compat; auto.
  - unfold Rsqr. apply (Rmult_eq_reg_r (q * q)); [|nra]. replace (/ q * / q * (q * q)) with 1 by (field; lra).
    replace ((1 - 30 / q * (30 / q)) * (q * q)) with (q * q - 900) by (field; lra). lra.
Qed.
Lemma three_right u v w l : In (u, v, w) [(Zv 0 0 1, Zv 1 (-1) 0, Zv 1 1 0)] ->
  sub_square 3 (angles_of (map axis2 ((u, false) :: (v, false) :: (w, false) :: l))) = right_angles.
Proof.
  intros [[= <- <- <-]|[]].
  rewrite angles_prefix by (cbn; lia). cbn [map firstn].
  change (angles_of (map (axis0 tall) [Zv 0 0 1; Zv 1 (-1) 0; Zv 1 1 0]) = right_angles).
  apply angles3; try discriminate; reflexivity.
Qed.
Lemma orc_tall axes angles tol : 0 < tol <= 1 -> (3 <= length angles)%nat -> sub_square 3 angles = right_angles -> firstn 3 (map ax_U axes) = [Zv 0 0 1; Zv 1 (-1) 0; Zv 1 1 0] ->
  check_rhl angles tol = Ok None /\ check_orc angles axes tol = Ok (Some "ORCC"%string).
Proof.
  intros T L S F. apply Nat.leb_le in L. split.
  - unfold check_rhl. rewrite L, S. rewrite (no_match _ _ _ 90); [reflexivity|cbn; tauto|].
    cbn [concat rhl_target app]. intros y Y. cbn in Y. destruct Y as [<-|[<-|[<-|[<-|[<-|[<-|[<-|[<-|[<-|[]]]]]]]]]]; rewrite Rabs_right; lra.
  - unfold check_orc. rewrite L, S, F.
    assert (M : matches right_angles orc_target tol = true).
    { unfold matches. rewrite sort_right.
      replace (concat orc_target) with [0; 90; 90; 0; 90; 90; 0; 90; 90] by reflexivity.
      rewrite sort_const by lra. cbn [all_close].
      assert (Q : forall x, Rltb (Rabs (x - x)) tol = true)
        by (intros; apply Rltb_true; replace (x - x) with 0 by ring; rewrite Rabs_R0; lra).
      rewrite !Q. reflexivity. }
    rewrite M. reflexivity.
Qed.
Lemma first_pass tol : 0 < tol <= 1 -> classify (angles_of (map axis2 tall_axes)) (map axis2 tall_axes) tol (ofZ tall) = Ok "ORCC"%string.
Proof.
  intros T. set (A := angles_of (map axis2 tall_axes)).
  assert (LA : length A = 9%nat) by (unfold A; rewrite angles_length; reflexivity).
  assert (I : forall k, (4 <= k <= 9)%nat -> In tilt (concat (sub_square k A))).
  { intros k K. assert (E : exists r1 r2 rest, A = (r1 :: r2) :: rest /\ nth_error (r1 :: r2) 3 = Some tilt).
    { unfold A, angles_of, tall_axes. cbn -[axis2 axes_angle]. do 3 eexists. split; [reflexivity|]. cbn -[axis2 axes_angle]. f_equal.
      eapply angle_c; [| | |reflexivity]; reflexivity. }
    destruct E as (r1 & r2 & rest & E & N). rewrite E. unfold sub_square. destruct k as [|k]; [lia|]. cbn [firstn map concat].
    apply in_or_app. left. apply nth_error_In with 3%nat. change (r1 :: firstn k r2) with (firstn (S k) (r1 :: r2)).
    rewrite <- N. clear - K. generalize (r1 :: r2). intros l. do 3 (destruct k as [|k]; [lia|]).
    do 4 (destruct l as [|? l]; [reflexivity|]). reflexivity. }
  pose proof tilt_bounds as TB.
  assert (F : forall k target, (4 <= k <= 9)%nat -> (forall y, In y (concat target) -> y = 0 \/ 30 <= y) -> tol <= 1 -> matches (sub_square k A) target tol = false).
  { intros k target K H _. apply (no_match _ _ _ tilt); auto. intros y Y. destruct (H y Y) as [->|Y']; [rewrite Rabs_right; lra|rewrite Rabs_left; lra]. }
  assert (RH : check_rhl A tol = Ok None /\ check_orc A (map axis2 tall_axes) tol = Ok (Some "ORCC"%string)).
  { apply orc_tall; auto; [rewrite LA; lia|apply three_right; cbn; auto]. }
  destruct RH as (R1 & R2). unfold classify.
  replace (check_cub A (map axis2 tall_axes) tol) with (@Ok (option string) None).
  2: { unfold check_cub. rewrite LA. cbn [Nat.leb]. rewrite F; [reflexivity|lia| |apply T]. cbn. intros y Y. repeat (destruct Y as [<-|Y]; [lra|]). contradiction. }
  replace (check_hex A tol) with (@Ok (option string) None).
  2: { unfold check_hex. rewrite LA. cbn [Nat.leb]. rewrite F; [reflexivity|lia| |apply T]. cbn. intros y Y. repeat (destruct Y as [<-|Y]; [lra|]). contradiction. }
  replace (check_tet A (map axis2 tall_axes) tol (ofZ tall)) with (@Ok (option string) None).
  2: { unfold check_tet. rewrite LA. cbn [Nat.leb]. rewrite F; [reflexivity|lia| |apply T]. cbn. intros y Y. repeat (destruct Y as [<-|Y]; [lra|]). contradiction. }
  cbn [or_else]. rewrite R1. cbn [or_else]. rewrite R2. reflexivity.
Qed.
Lemma second_pass tol : 0 < tol <= 1 -> let l := map axis2 (firstn 3 tall_axes) in classify (angles_of l) l tol (ofZ tall) = Ok "ORCC"%string.
Proof.
  intros T l. destruct (orc_tall l (angles_of l) tol T) as (R1 & R2).
  - rewrite angles_length. cbn. lia.
  - apply three_right. cbn. auto.
  - reflexivity.
  - unfold classify. unfold check_cub, check_hex, check_tet. rewrite angles_length. change (length l) with 3%nat. cbn [Nat.leb or_else].
    rewrite R1. cbn [or_else]. rewrite R2. reflexivity.
Qed.

(* A primitive tetragonal cell, 1 x 1 x 15.  Two of its two-fold axes, (1,0,0) and (0,1,0), are found twice, once exactly
   and once with the plane (2,0,1) or (0,2,1), 1.9 degrees off.  Of the two entries lepage keeps the worse one and then
   drops it.  The three axes left are those of a base-centred orthorhombic lattice, and this is the answer, at any
   angle tolerance up to 1 degree. *)
Theorem C60_elongated_refuted : exists cell, standard "TET" cell /\
  forall spglib given no_niggli tol, lepage_cell spglib given no_niggli = Ok cell -> 0 < tol <= 1 ->
  lepage spglib given tol no_niggli 2 = Ok "ORCC"%string.
Proof.
  exists (ofZ (Zm 1 0 0 0 1 0 0 0 15)). split.
  { replace (ofZ (Zm 1 0 0 0 1 0 0 0 15)) with (SC_TET 1 15); [apply st_tet; lra|]. unfold SC_TET, ofZ. vunfold. vcomp; ring. }
  fold tall. intros spglib given nn tol CE T. unfold lepage, lepage_all. rewrite CE. cbn [bind]. rewrite axes_tall. cbn [bind]. rewrite Rabs_right by lra.
  pose proof tilt_bounds as TB.
  assert (SO : sorted_axes (map axis2 tall_axes)).
  { unfold tall_axes. cbn [map]. repeat (constructor; [cbn [In]; intros y Y; repeat (destruct Y as [<-|Y]; [rewrite !delta2; cbn [snd]; lra|]); contradiction|]). constructor. }
  assert (NN : forall a, In a (map axis2 tall_axes) -> 0 <= ax_delta a).
  { intros a I. apply in_map_iff in I. destruct I as (x & <- & _). rewrite delta2. destruct (snd x); lra. }
  destruct (lepage_loop (S (length (map axis2 tall_axes))) (map axis2 tall_axes) (angles_of (map axis2 tall_axes)) tol (ofZ tall)) as [rs|e] eqn:E.
  - destruct (loop_spec tol (ofZ tall) ltac:(lra) _ _ _ SO NN (Nat.lt_succ_diag_r _) E) as (_ & C & _). cbn [bind].
    assert (U : upto tol (map axis2 tall_axes) = map axis2 (firstn 3 tall_axes)).
    { unfold upto, tall_axes. cbn [map filter firstn]. rewrite !delta2. cbn [snd].
      destruct (Rleb_spec 0 tol); [|lra]. destruct (Rleb_spec tilt tol); [lra|]. reflexivity. }
    rewrite U in C. pose proof (second_pass tol T) as SP. cbv zeta in SP. congruence.
  - exfalso. destruct (loop_errors tol (ofZ tall) e ltac:(lra) _ _ SO NN (Nat.lt_succ_diag_r _) E) as (d & D & C).
    destruct (Rlt_dec d tilt) as [L|L].
    + assert (U : upto d (map axis2 tall_axes) = map axis2 (firstn 3 tall_axes)).
      { unfold upto, tall_axes. cbn [map filter firstn]. rewrite !delta2. cbn [snd].
        destruct (Rleb_spec 0 d); [|lra]. destruct (Rleb_spec tilt d); [lra|]. reflexivity. }
      rewrite U in C. pose proof (second_pass tol T) as SP. cbv zeta in SP. congruence.
    + assert (U : upto d (map axis2 tall_axes) = map axis2 tall_axes).
      { unfold upto, tall_axes. cbn [map filter]. rewrite !delta2. cbn [snd].
        destruct (Rleb_spec 0 d); [|lra]. destruct (Rleb_spec tilt d); [|lra]. reflexivity. }
      rewrite U in C. pose proof (first_pass tol T). congruence.
Qed.
Print Assumptions C60_elongated_refuted.
(* the hypothesis on the cell is met with and without the Niggli reduction *)
Example elongated_met : lepage_cell None (ofZ tall) true = Ok (ofZ tall) /\ lepage_cell (Some (fun c _ => Ok c)) (ofZ tall) false = Ok (ofZ tall).
Proof. split; reflexivity. Qed.
