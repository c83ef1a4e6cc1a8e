(* P_Lepage.v : property C16 *)
From Verif Require Import Base M_Numerical M_Geometry M_Cell M_Niggli M_Voronoi F_Voronoi F_Geometry M_Lepage F_Lepage F_LepageEx.
Open Scope R_scope.

Lemma axes_eq cell limit r : get_reciprocal cell = Ok r ->
  lepage_axes cell limit = Ok (dedup (sort_by ax_delta (flat_map (cand cell r limit) pairs22))).
Proof.
  intros Er. unfold lepage_axes. rewrite Er. cbn [bind].
  rewrite candidates_ok by (apply reciprocal_dual; auto). reflexivity.
Qed.
Lemma axes_inv cell limit axes : lepage_axes cell limit = Ok axes -> exists r, get_reciprocal cell = Ok r /\
  axes = dedup (sort_by ax_delta (flat_map (cand cell r limit) pairs22)).
Proof.
  intros H. destruct (get_reciprocal cell) as [r|] eqn:Er.
  - exists r. split; [reflexivity|]. rewrite (axes_eq _ _ _ Er) in H. congruence.
  - unfold lepage_axes in H. rewrite Er in H. discriminate.
Qed.
Opaque pairs22.

Lemma axes_sorted cell limit axes : lepage_axes cell limit = Ok axes ->
  sorted_axes axes /\ (forall a, In a axes -> 0 <= ax_delta a).
Proof.
  intros H. destruct (axes_inv _ _ _ H) as (r & Er & ->). split.
  - apply dedup_sorted, sort_by_sorted.
  - intros a Ha. apply dedup_sub in Ha. destruct Ha as (b & Hb & ->).
    rewrite (proj1 (proj2 (halve_spec b))). apply sort_by_in, in_candidates in Hb.
    destruct Hb as (U & h & _ & _ & _ & _ & ->). apply axis_delta_nonneg.
Qed.

(* ---------------- the search always stops ---------------- *)
(* At least one and at most (number of candidate axes) + 1 passes are made; each pass
   reports a Bravais lattice type and the answer is the last one. *)
Theorem C16_passes_bounded : forall spglib cell tol no_niggli limit results,
  lepage_all spglib cell tol no_niggli limit = Ok results ->
  exists cell' axes,
    lepage_cell spglib cell no_niggli = Ok cell' /\ lepage_axes cell' limit = Ok axes /\
    (1 <= length results <= length axes + 1)%nat /\
    (forall r, In r results -> In r ["CUB"; "FCC"; "BCC"; "TET"; "BCT"; "ORC"; "ORCF"; "ORCI"; "ORCC";
                                    "HEX"; "RHL"; "MCL"; "MCLC"; "TRI"]%string) /\
    lepage spglib cell tol no_niggli limit = Ok (last results EmptyString).
Proof.
  intros spg cell tol nn limit results H. pose proof H as H0. unfold lepage_all in H.
  destruct (lepage_cell spg cell nn) as [cell'|] eqn:Ec; [|discriminate]. cbn [bind] in H.
  destruct (lepage_axes cell' limit) as [axes|] eqn:Ea; [|discriminate]. cbn [bind] in H.
  exists cell', axes. split; [reflexivity|]. split; [exact Ea|].
  destruct (axes_sorted _ _ _ Ea) as [S N].
  destruct (loop_spec _ _ (Rabs_pos tol) _ _ _ S N (Nat.lt_succ_diag_r _) H) as (L & _ & A).
  split; [lia|]. split.
  - intros r Hr. destruct (A r Hr) as (d & _ & C). pose proof (classify_fine (angles_of (upto d axes)) (upto d axes) (Rabs tol) cell') as F.
    rewrite C in F. exact F.
  - unfold lepage. rewrite H0. reflexivity.
Qed.
Print Assumptions C16_passes_bounded.

Lemma last_in {A} (d x : A) l : In (last (x :: l) d) (x :: l).
Proof.
  revert x; induction l as [|y l IH]; intros x; [cbn; auto|].
  change (last (x :: y :: l) d) with (last (y :: l) d). right. apply IH.
Qed.
Theorem C16_valid_answer : forall spglib cell tol no_niggli limit r,
  lepage spglib cell tol no_niggli limit = Ok r ->
  In r ["CUB"; "FCC"; "BCC"; "TET"; "BCT"; "ORC"; "ORCF"; "ORCI"; "ORCC";
        "HEX"; "RHL"; "MCL"; "MCLC"; "TRI"]%string.
Proof.
  intros spg cell tol nn limit r H. unfold lepage in H.
  destruct (lepage_all spg cell tol nn limit) as [rs|] eqn:E; [|discriminate]. cbn in H. injection H as <-.
  destruct (C16_passes_bounded _ _ _ _ _ _ E) as (c0 & ax0 & _ & _ & L & A & _). apply A.
  destruct rs as [|x rs]; [cbn in L; lia|]. apply last_in.
Qed.
Print Assumptions C16_valid_answer.

(* The answer is the classification of exactly those candidate axes whose angular
   discrepancy is within the tolerance. *)
Theorem C16_answer_is_classification : forall spglib cell tol no_niggli limit r,
  lepage spglib cell tol no_niggli limit = Ok r ->
  exists cell' axes,
    lepage_cell spglib cell no_niggli = Ok cell' /\ lepage_axes cell' limit = Ok axes /\
    let surviving := filter (fun a => Rleb (ax_delta a) (Rabs tol)) axes in
    classify (angles_of surviving) surviving (Rabs tol) cell' = Ok r.
Proof.
  intros spg cell tol nn limit r H. unfold lepage in H.
  destruct (lepage_all spg cell tol nn limit) as [rs|] eqn:E; [|discriminate]. cbn in H. injection H as <-.
  unfold lepage_all in E.
  destruct (lepage_cell spg cell nn) as [cell'|] eqn:Ec; [|discriminate]. cbn [bind] in E.
  destruct (lepage_axes cell' limit) as [axes|] eqn:Ea; [|discriminate]. cbn [bind] in E.
  exists cell', axes. split; [reflexivity|]. split; [exact Ea|].
  destruct (axes_sorted _ _ _ Ea) as [S N].
  destruct (loop_spec _ _ (Rabs_pos tol) _ _ _ S N (Nat.lt_succ_diag_r _) E) as (_ & C & _). exact C.
Qed.
Print Assumptions C16_answer_is_classification.
(* The cell that is classified: the one given if no_niggli, else what spglib returns for it with the tolerance 1e-5, or
   the one given if the reduction fails; without spglib the call raises ImportError, other exceptions pass through. *)
Theorem C16_niggli_first : forall spglib cell tol limit,
  let raw := fun c => lepage None c tol true limit in
  lepage spglib cell tol true limit = raw cell /\
  lepage None cell tol false limit = Err ImportError /\
  (forall f reduced, f cell (/ 100000) = Ok reduced -> lepage (Some f) cell tol false limit = raw reduced) /\
  (forall f, f cell (/ 100000) = Err NiggliReductionFailed -> lepage (Some f) cell tol false limit = raw cell) /\
  (forall f e, f cell (/ 100000) = Err e -> e <> NiggliReductionFailed -> lepage (Some f) cell tol false limit = Err e).
Proof.
  intros spglib cell tol limit raw. unfold raw, lepage, lepage_all, lepage_cell, get_niggli. cbv zeta.
  change (String.eqb (M_Strings.lower "spglib"%string) "spglib"%string) with true. cbv iota. replace (1 / 100000) with (/ 100000) by field.
  split; [reflexivity|]. split; [reflexivity|]. split; [intros f c E; rewrite E; reflexivity|]. split; [intros f E; rewrite E; reflexivity|].
  intros f e E N. rewrite E. destruct e; try contradiction; reflexivity.
Qed.
Print Assumptions C16_niggli_first.

(* No candidate axis within the tolerance: triclinic. *)
Theorem C16_no_axes_triclinic : forall spglib cell tol no_niggli limit r cell' axes,
  lepage_cell spglib cell no_niggli = Ok cell' -> lepage_axes cell' limit = Ok axes ->
  (forall a, In a axes -> Rabs tol < ax_delta a) ->
  lepage spglib cell tol no_niggli limit = Ok r -> r = "TRI"%string.
Proof.
  intros spg cell tol nn limit r cell' axes Hc Ha Hn H.
  destruct (C16_answer_is_classification _ _ _ _ _ _ H) as (c & ax & E1 & E2 & C).
  rewrite Hc in E1. injection E1 as <-. rewrite Ha in E2. injection E2 as <-. cbv zeta in C.
  rewrite filter_none in C.
  - cbn in C. congruence.
  - intros a Hin. apply not_true_is_false. rewrite Rleb_true. specialize (Hn a Hin). lra.
Qed.
Print Assumptions C16_no_axes_triclinic.

(* All ways to fail: what the Niggli reduction raises, a degenerate cell, or the three
   exceptions of the classification; never NaN, never an endless loop. *)
Theorem C16_failures : forall spglib cell tol no_niggli limit e,
  lepage spglib cell tol no_niggli limit = Err e ->
  lepage_cell spglib cell no_niggli = Err e \/
  exists cell', lepage_cell spglib cell no_niggli = Ok cell' /\
    ((det cell' = 0 /\ e = LinAlgError) \/
     (det cell' <> 0 /\ In e [UnboundLocalError; LinAlgError; IndexError])).
Proof.
  intros spg cell tol nn limit e H. unfold lepage in H.
  destruct (lepage_all spg cell tol nn limit) as [rs|e'] eqn:E; [discriminate|]. cbn in H. injection H as ->.
  unfold lepage_all in E. destruct (lepage_cell spg cell nn) as [cell'|e'] eqn:Ec; cbn [bind] in E.
  - right. exists cell'. split; [reflexivity|].
    destruct (Req_dec (det cell') 0) as [D|D].
    + left. split; auto. unfold lepage_axes in E. rewrite get_reciprocal_err in E by auto. cbn in E. congruence.
    + right. split; auto.
      assert (Ea : exists axes, lepage_axes cell' limit = Ok axes).
      { eexists. eapply axes_eq, get_reciprocal_ok; auto. }
      destruct Ea as [axes Ea]. rewrite Ea in E. cbn [bind] in E. destruct (axes_sorted _ _ _ Ea) as [S N].
      destruct (loop_errors _ _ _ (Rabs_pos tol) _ _ S N (Nat.lt_succ_diag_r _) E) as (d & _ & C).
      pose proof (classify_fine (angles_of (upto d axes)) (upto d axes) (Rabs tol) cell') as F.
      rewrite C in F. exact F.
  - left. congruence.
Qed.
Print Assumptions C16_failures.

(* ---------------- what the candidate axes are ---------------- *)
(* angle (degrees) between the lines along t and tau *)
Definition line_angle (t tau : vec) (delta : R) : Prop :=
  0 <= delta < 90 /\ cos (delta * PI / 180) = Rabs (dot t tau) / (norm t * norm tau).

Lemma lagrange_norm t s : norm (cross t s) * norm (cross t s) + dot t s * dot t s = (norm t * norm s) * (norm t * norm s).
Proof.
  unfold norm. assert (P : forall v, 0 <= dot v v) by (intros [a b c]; vunfold; nra).
  rewrite sqrt_sqrt by apply P.
  replace (sqrt (dot t t) * sqrt (dot s s) * (sqrt (dot t t) * sqrt (dot s s)))
    with ((sqrt (dot t t) * sqrt (dot t t)) * (sqrt (dot s s) * sqrt (dot s s))) by ring.
  rewrite !sqrt_sqrt by apply P. vring.
Qed.
Lemma atan_line_angle t s : dot t s <> 0 ->
  line_angle t s (atan (norm (cross t s) / Rabs (dot t s)) * TODEGREES).
Proof.
  intros NZ. pose proof PI_RGT_0 as P0. set (q := norm (cross t s) / Rabs (dot t s)).
  assert (Hd : 0 < Rabs (dot t s)) by (apply Rabs_pos_lt; auto).
  assert (Q : 0 <= q) by (unfold q, Rdiv; apply Rmult_le_pos; [apply sqrt_pos|left; apply Rinv_0_lt_compat; auto]).
  assert (A0 : 0 <= atan q).
  { rewrite <- atan_0. destruct Q as [Q|Q]; [left; apply atan_increasing; auto|rewrite <- Q; lra]. }
  pose proof (atan_bound q) as [_ A1]. unfold TODEGREES. split.
  - split; [apply Rmult_le_pos; [auto|]; apply Rlt_le, Rdiv_lt_0_compat; lra|].
    replace 90 with (PI / 2 * (180 / PI)) by (field; lra). apply Rmult_lt_compat_r; [apply Rdiv_lt_0_compat; lra|auto].
  - replace (atan q * (180 / PI) * PI / 180) with (atan q) by (field; lra). rewrite cos_atan.
    pose proof (lagrange_norm t s) as LG.
    assert (N0 : 0 <= norm t * norm s) by (apply Rmult_le_pos; apply sqrt_pos).
    assert (NN : norm t * norm s <> 0).
    { intros Z. rewrite Z in LG. pose proof (Rle_0_sqr (norm (cross t s))). unfold Rsqr in *.
      assert (0 < dot t s * dot t s) by (destruct (Rtotal_order (dot t s) 0) as [G|[G|G]]; [|contradiction|]; nra). lra. }
    assert (AD : Rabs (dot t s) * Rabs (dot t s) = dot t s * dot t s) by (rewrite <- Rabs_mult, Rabs_right; auto; nra).
    assert (E : sqrt (1 + q²) = norm t * norm s / Rabs (dot t s)).
    { apply sqrt_lem_1.
      - unfold Rsqr. nra.
      - unfold Rdiv. apply Rmult_le_pos; [auto|left; apply Rinv_0_lt_compat; auto].
      - unfold Rsqr, q. set (ad := Rabs (dot t s)) in *. clearbody ad.
        replace (norm t * norm s / ad * (norm t * norm s / ad)) with ((norm t * norm s) * (norm t * norm s) / (ad * ad)) by (field; lra).
        rewrite <- LG, <- AD. field. lra. }
    rewrite E. field.
    repeat split; try lra; intros Z; apply NN; rewrite Z; ring.
Qed.

(* Soundness: every candidate axis is a lattice direction U (small integer indices) which
   is, up to an angle delta < limit, normal to a lattice plane h with |U.h| = 2 or
   (halved) 1; its unit vector points along U. *)
Theorem C16_axes_sound : forall cell limit axes rcell, get_reciprocal cell = Ok rcell ->
  lepage_axes cell limit = Ok axes ->
  forall a, In a axes -> exists h,
    (- 2 <= zx (ax_U a) <= 2 /\ - 2 <= zy (ax_U a) <= 2 /\ - 2 <= zz (ax_U a) <= 2)%Z /\
    (- 2 <= zx h <= 2 /\ - 2 <= zy h <= 2 /\ - 2 <= zz h <= 2)%Z /\
    (Z.abs (zdot (ax_U a) h) = 2 \/ Z.abs (zdot (ax_U a) h) = 1)%Z /\
    ax_delta a < limit /\
    line_angle (vmat (ofZv (ax_U a)) cell) (vmat (ofZv h) rcell) (ax_delta a) /\
    ax_t a = vscale (/ norm (vmat (ofZv (ax_U a)) cell)) (vmat (ofZv (ax_U a)) cell).
Proof.
  intros cell limit axes r Er H a Ha. rewrite (axes_eq _ _ _ Er) in H.
  pose proof (reciprocal_dual _ _ Er) as Dual.
  assert (Q : axes = dedup (sort_by ax_delta (flat_map (cand cell r limit) pairs22))) by congruence. rewrite Q in Ha; clear Q H.
  apply dedup_sub in Ha. destruct Ha as (b & Hb & Ea). apply sort_by_in, in_candidates in Hb.
  destruct Hb as (U & h & HU & Hh & D & L & Eb). apply in_miller in HU; [|lia]. apply in_miller in Hh; [|lia].
  exists h. destruct (halve_spec b) as (T1 & T2 & T3). rewrite <- Ea in T1, T2, T3.
  assert (EU : ax_U b = U) by (rewrite Eb; reflexivity). rewrite EU in T3.
  assert (NZ : dot (vmat (ofZv U) cell) (vmat (ofZv h) r) <> 0).
  { rewrite (dual_dot _ _ _ _ Dual), ofZv_dot. intros Q. apply Rmult_integral in Q.
    pose proof PI_RGT_0. destruct Q as [Q|Q]; [lra|]. apply eq_IZR in Q. rewrite Q in D. discriminate. }
  assert (LA : line_angle (vmat (ofZv U) cell) (vmat (ofZv h) r) (axis_delta cell r U h)) by (apply atan_line_angle; auto).
  rewrite T2, T1, Eb. cbn [ax_delta ax_t]. destruct T3 as [T3|T3].
  - rewrite T3. repeat split; auto; try lia; apply LA.
  - set (w := ax_U a) in *.
    assert (V2 : vmat (ofZv U) cell = vscale 2 (vmat (ofZv w) cell)).
    { rewrite T3. rewrite <- vmat_scale. f_equal. destruct w. unfold ofZv, zscale, vscale; cbn [vx vy vz Base.zx Base.zy Base.zz].
      rewrite !mult_IZR. reflexivity. }
    destruct U as [u1 u2 u3], w as [w1 w2 w3]. unfold zscale in T3; cbn [Base.zx Base.zy Base.zz] in *.
    pose proof (f_equal Base.zx T3) as Q1. pose proof (f_equal Base.zy T3) as Q2. pose proof (f_equal Base.zz T3) as Q3.
    cbn [Base.zx Base.zy Base.zz] in Q1, Q2, Q3.
    split; [lia|]. split; [lia|]. split; [right; unfold zdot in *; cbn [Base.zx Base.zy Base.zz] in *; subst; lia|].
    split; [auto|].
    assert (Nw : norm (vmat (ofZv (Zv w1 w2 w3)) cell) <> 0).
    { intros Z. apply NZ. rewrite V2, dot_scale_l, norm_zero_dot by auto. ring. }
    rewrite V2 in LA |- *. split.
    + destruct LA as [LA1 LA2]. split; [exact LA1|]. rewrite LA2, norm_scale, dot_scale_l, Rabs_mult, (Rabs_right 2) by lra.
      assert (Nh : norm (vmat (ofZv h) r) <> 0).
      { intros Z. apply NZ. rewrite V2, dot_scale_l.
        replace (dot (vmat (ofZv (Zv w1 w2 w3)) cell) (vmat (ofZv h) r)) with (dot (vmat (ofZv h) r) (vmat (ofZv (Zv w1 w2 w3)) cell))
          by (generalize (vmat (ofZv h) r) (vmat (ofZv (Zv w1 w2 w3)) cell); clear; vring).
        rewrite norm_zero_dot by auto. ring. }
      field. auto.
    + rewrite norm_scale, (Rabs_right 2) by lra. apply scale_half. auto.
Qed.
Print Assumptions C16_axes_sound.

Lemma line_angle_unique t s d1 d2 : line_angle t s d1 -> line_angle t s d2 -> d1 = d2.
Proof.
  intros [B1 C1] [B2 C2]. pose proof PI_RGT_0 as P0.
  assert (L : forall a b, 0 <= a < 90 -> 0 <= b < 90 -> a < b -> cos (b * PI / 180) < cos (a * PI / 180)).
  { intros a b Ha Hb Hab. apply cos_decreasing_1; nra. }
  destruct (Rtotal_order d1 d2) as [G|[G|G]]; auto.
  - pose proof (L _ _ B1 B2 G). lra.
  - pose proof (L _ _ B2 B1 G). lra.
Qed.

(* Completeness: every direction U for which some plane h in the search range qualifies
   is represented by a candidate axis. *)
Theorem C16_axes_complete : forall cell limit axes rcell U h delta, get_reciprocal cell = Ok rcell ->
  lepage_axes cell limit = Ok axes ->
  (- 2 <= zx U <= 2 /\ - 2 <= zy U <= 2 /\ - 2 <= zz U <= 2)%Z ->
  (- 2 <= zx h <= 2 /\ - 2 <= zy h <= 2 /\ - 2 <= zz h <= 2)%Z ->
  Z.abs (zdot U h) = 2%Z -> line_angle (vmat (ofZv U) cell) (vmat (ofZv h) rcell) delta -> delta < limit ->
  exists a, In a axes /\ zparallel U (ax_U a).
Proof.
  intros cell limit axes r U h delta Er H HU Hh D LD L.
  assert (NZ0 : dot (vmat (ofZv U) cell) (vmat (ofZv h) r) <> 0).
  { rewrite (dual_dot _ _ _ _ (reciprocal_dual _ _ Er)), ofZv_dot. intros Q. apply Rmult_integral in Q.
    pose proof PI_RGT_0. destruct Q as [Q|Q]; [lra|]. apply eq_IZR in Q. rewrite Q in D. discriminate. }
  rewrite (line_angle_unique _ _ _ _ LD (atan_line_angle _ _ NZ0)) in L. fold (axis_delta cell r U h) in L. clear LD NZ0.
  rewrite (axes_eq _ _ _ Er) in H.
  assert (Q : axes = dedup (sort_by ax_delta (flat_map (cand cell r limit) pairs22))) by congruence. rewrite Q; clear Q H.
  assert (Hin : In (ax cell r U h) (sort_by ax_delta (flat_map (cand cell r limit) pairs22))).
  { apply sort_by_in, in_candidates. exists U, h. rewrite !in_miller by lia. auto. }
  assert (NZ : forall a, In a (sort_by ax_delta (flat_map (cand cell r limit) pairs22)) -> ax_U a <> Zv 0 0 0).
  { intros a Ha. apply sort_by_in, in_candidates in Ha. destruct Ha as (V & k & _ & _ & DV & _ & ->).
    cbn. eapply zdot_nonzero; eauto. }
  destruct (dedup_complete _ NZ _ Hin) as (b & c & Hc & Hb & Eb & P). exists b. split; [exact Hb|].
  cbn [ax ax_U] in P. pose proof (halve_spec c) as (_ & _ & T). rewrite <- Eb in T.
  destruct T as [T|T]; [rewrite T; exact P|]. rewrite T in P.
  clear - P. destruct U as [u1 u2 u3], (ax_U b) as [w1 w2 w3].
  unfold zparallel, zscale in *; cbn [Base.zx Base.zy Base.zz] in *. lia.
Qed.
Print Assumptions C16_axes_complete.

(* No direction is counted twice. *)
Theorem C16_axes_distinct : forall cell limit axes, lepage_axes cell limit = Ok axes ->
  forall i j a b, (i < j)%nat -> nth_error axes i = Some a -> nth_error axes j = Some b ->
  ~ zparallel (ax_U a) (ax_U b).
Proof.
  intros cell limit axes H. destruct (axes_inv _ _ _ H) as (r & Er & ->).
  pose proof (dedup_distinct cell r limit _ [] eq_refl) as F. revert F.
  generalize (dedup (sort_by ax_delta (flat_map (cand cell r limit) pairs22))).
  induction 1 as [|x l Hx Hl IH]; intros i j a b Hij Ea Eb; [destruct i; discriminate Ea|].
  destruct j as [|j]; [lia|]. cbn in Eb. destruct i as [|i]; cbn in Ea.
  - injection Ea as <-. rewrite Forall_forall in Hx. apply Hx. eapply nth_error_In; eauto.
  - apply (IH i j); auto. lia.
Qed.
Print Assumptions C16_axes_distinct.

(* They are listed from the best to the worst. *)
Theorem C16_axes_ordered : forall cell limit axes, lepage_axes cell limit = Ok axes ->
  forall i j a b, (i < j)%nat -> nth_error axes i = Some a -> nth_error axes j = Some b ->
  ax_delta a <= ax_delta b.
Proof.
  intros cell limit axes H. destruct (axes_sorted _ _ _ H) as [S _].
  induction S as [|x l Hx Hl IH]; intros i j a b Hij Ea Eb; [destruct i; discriminate|].
  destruct j as [|j]; [lia|]. cbn in Eb. destruct i as [|i]; cbn in Ea.
  - injection Ea as <-. apply Hx. eapply nth_error_In; eauto.
  - clear H. revert i j a b Hij Ea Eb.
    assert (G : forall i j a b, (i < j)%nat -> nth_error l i = Some a -> nth_error l j = Some b -> ax_delta a <= ax_delta b).
    { clear IH Hx. induction Hl as [|y l Hy Hl IH]; intros i j a b Hij Ea Eb; [destruct i; discriminate|].
      destruct j as [|j]; [lia|]. cbn in Eb. destruct i as [|i]; cbn in Ea.
      - injection Ea as <-. apply Hy. eapply nth_error_In; eauto.
      - apply (IH i j); auto. lia. }
    intros. apply (G i j); auto. lia.
Qed.
Print Assumptions C16_axes_ordered.

(* ---------------- concrete runs ---------------- *)
Lemma run3 m u v w res : det (ofZ m) <> 0 -> separated m = true -> zdedup (us0 m) = [u; v; w] ->
  ztimes u m <> Zv 0 0 0 -> ztimes v m <> Zv 0 0 0 -> ztimes w m <> Zv 0 0 0 ->
  zdot (ztimes u m) (ztimes v m) = 0%Z -> zdot (ztimes u m) (ztimes w m) = 0%Z -> zdot (ztimes v m) (ztimes w m) = 0%Z ->
  check_orc right_angles (map (axis0 m) [u; v; w]) (1 / 10000) = res -> res <> Ok None ->
  lepage None (ofZ m) (1 / 10000) true 2 = (do r <- res; match r with Some s => Ok s | None => Ok "TRI"%string end).
Proof.
  intros D Sp E N1 N2 N3 P1 P2 P3 C NR. unfold lepage, lepage_all, lepage_cell. cbn [bind].
  rewrite (axes_ex m D Sp), E. cbn [bind]. rewrite angles3 by auto. rewrite (Rabs_right (1 / 10000)) by lra.
  set (axes := map (axis0 m) [u; v; w]) in *. change (S (length axes)) with 4%nat. cbn [lepage_loop].
  rewrite (proj1 (classify3 axes (ofZ m) eq_refl)), C.
  assert (M : max_delta axes = 0) by (unfold axes, max_delta; cbn; rewrite !(Rmax_left 0 0) by lra; reflexivity).
  rewrite M. destruct (Rltb_spec (1 / 10000) 0); [lra|].
  destruct res as [[s|]|e]; [reflexivity|congruence|reflexivity].
Qed.

(* A brick is primitive orthorhombic. *)
Example C16_brick : lepage None (mk 1 0 0  0 2 0  0 0 3) (1 / 10000) true 2 = Ok "ORC"%string.
Proof.
  rewrite <- (eq_refl : ofZ (Zm 1 0 0 0 2 0 0 0 3) = mk 1 0 0  0 2 0  0 0 3).
  erewrite (run3 (Zm 1 0 0 0 2 0 0 0 3) (Zv 0 0 1) (Zv 0 1 0) (Zv 1 0 0) (Ok (Some "ORC"%string)));
    try discriminate; try reflexivity.
  - vunfold. lra.
  - unfold check_orc. rewrite (proj2 (classify3 (map (axis0 (Zm 1 0 0 0 2 0 0 0 3)) [Zv 0 0 1; Zv 0 1 0; Zv 1 0 0]) mid eq_refl)).
    reflexivity.
Qed.

(* With the Niggli reduction switched off, another basis of that very lattice makes
   lepage crash: indices like (2,-2,0) are not halved, the determinant becomes 8. *)
Theorem C16_always_answers_refuted :
  let cell := mk 0 (-2) 3  (-1) (-2) 3  (-1) (-4) 3 in
  lepage None cell (1 / 10000) true 2 = Err UnboundLocalError /\
  exists t : zmat, (zdet t = 1 \/ zdet t = -1)%Z /\ cell = mmul (ofZ t) (mk 1 0 0  0 2 0  0 0 3).
Proof.
  cbv zeta. split.
  - rewrite <- (eq_refl : ofZ (Zm 0 (-2) 3 (-1) (-2) 3 (-1) (-4) 3) = mk 0 (-2) 3  (-1) (-2) 3  (-1) (-4) 3).
    erewrite (run3 (Zm 0 (-2) 3 (-1) (-2) 3 (-1) (-4) 3) (Zv 0 2 (-2)) (Zv 2 (-2) 0) (Zv 2 2 (-2)) (Err UnboundLocalError));
      try discriminate; try reflexivity.
    + vunfold. lra.
    + unfold check_orc. rewrite (proj2 (classify3 (map (axis0 (Zm 0 (-2) 3 (-1) (-2) 3 (-1) (-4) 3)) [Zv 0 2 (-2); Zv 2 (-2) 0; Zv 2 2 (-2)]) mid eq_refl)).
      reflexivity.
  - exists (Zm 0 (-1) 1 (-1) (-1) 1 (-1) (-2) 1). split; [vm_compute; auto|].
    unfold ofZ, mk. vunfold. vcomp; ring.
Qed.
Print Assumptions C16_always_answers_refuted.
