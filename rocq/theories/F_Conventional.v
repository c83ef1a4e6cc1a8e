(* F_Conventional.v : facts used by P_Conventional *)
From Verif Require Import Base M_Strings M_Dict M_Numerical M_Geometry M_Cell M_Niggli M_Atoms T_Tables M_Spglib
  M_Conventional F_Geometry F_Niggli F_Voronoi F_Strings S_Crystal.
Open Scope string_scope.
Open Scope list_scope.
Open Scope R_scope.

(* ---------------- degrees ---------------- *)
Definition deg (u v : vec) : R := angle_rad u v * TODEGREES.
Lemma deg_sym u v : deg u v = deg v u.
Proof. unfold deg. rewrite angle_rad_sym. reflexivity. Qed.
Lemma deg_neg_l u v : 0 < norm u -> 0 < norm v -> deg (vneg u) v = 180 - deg u v.
Proof.
  intros H K. unfold deg. rewrite angle_rad_neg by auto. unfold TODEGREES. field. apply PI_neq0.
Qed.
Lemma deg_neg_r u v : 0 < norm u -> 0 < norm v -> deg u (vneg v) = 180 - deg u v.
Proof. intros. rewrite deg_sym, deg_neg_l, (deg_sym v) by auto. reflexivity. Qed.
Lemma deg_neg2 u v : 0 < norm u -> 0 < norm v -> deg (vneg u) (vneg v) = deg u v.
Proof. intros. rewrite deg_neg_l, deg_neg_r by (rewrite ?norm_neg; auto). lra. Qed.

Definition big (m : mat) : Prop :=
  FLOAT_EPS < norm (row1 m) /\ FLOAT_EPS < norm (row2 m) /\ FLOAT_EPS < norm (row3 m).
Definition params_val (m : mat) : params :=
  Params (norm (row1 m)) (norm (row2 m)) (norm (row3 m))
         (deg (row2 m) (row3 m)) (deg (row1 m) (row3 m)) (deg (row1 m) (row2 m)).
Lemma get_params_val m : big m -> get_params m = Ok (params_val m).
Proof. intros (A & B & C). unfold get_params. rewrite !get_angle_ok by auto. reflexivity. Qed.
Lemma get_params_inv m p : get_params m = Ok p -> big m /\ p = params_val m.
Proof.
  intros H. assert (B : big m).
  { unfold big. destruct (Rlt_dec FLOAT_EPS (norm (row1 m))) as [A|A];
      [|rewrite get_params_err in H by (left; lra); discriminate].
    destruct (Rlt_dec FLOAT_EPS (norm (row2 m))) as [A2|A2];
      [|rewrite get_params_err in H by (right; left; lra); discriminate].
    destruct (Rlt_dec FLOAT_EPS (norm (row3 m))) as [A3|A3];
      [|rewrite get_params_err in H by (right; right; lra); discriminate]. auto. }
  split; auto. rewrite get_params_val in H by auto. congruence.
Qed.
Lemma get_params_cases m : (exists p, get_params m = Ok p) \/ get_params m = Err ValueError.
Proof.
  destruct (Rlt_dec FLOAT_EPS (norm (row1 m))) as [A|A];
      [|right; apply get_params_err; lra].
  destruct (Rlt_dec FLOAT_EPS (norm (row2 m))) as [A2|A2];
      [|right; apply get_params_err; lra].
  destruct (Rlt_dec FLOAT_EPS (norm (row3 m))) as [A3|A3];
      [|right; apply get_params_err; lra].
  left. eexists. apply get_params_val. split; auto.
Qed.
Lemma big_pos m : big m -> 0 < norm (row1 m) /\ 0 < norm (row2 m) /\ 0 < norm (row3 m).
Proof. pose proof FLOAT_EPS_pos. intros (A & B & C). lra. Qed.

(* ---------------- the matrices of the code act on the rows ---------------- *)
Lemma tapply_eye a b c : tapply eye (M3 a b c) = M3 a b c. Proof. unfold tapply, eye, zid; vring. Qed.
Lemma tapply_231 a b c : tapply cyc_231 (M3 a b c) = M3 b c a. Proof. unfold tapply, cyc_231; vring. Qed.
Lemma tapply_312 a b c : tapply cyc_312 (M3 a b c) = M3 c a b. Proof. unfold tapply, cyc_312; vring. Qed.
Lemma tapply_flip_ab a b c : tapply flip_ab (M3 a b c) = M3 (vneg a) (vneg b) c. Proof. unfold tapply, flip_ab; vring. Qed.
Lemma tapply_flip_ac a b c : tapply flip_ac (M3 a b c) = M3 (vneg a) b (vneg c). Proof. unfold tapply, flip_ac; vring. Qed.
Lemma tapply_flip_bc a b c : tapply flip_bc (M3 a b c) = M3 a (vneg b) (vneg c). Proof. unfold tapply, flip_bc; vring. Qed.
Lemma tapply_rot_ab a b c : tapply rot_ab (M3 a b c) = M3 b (vneg a) c. Proof. unfold tapply, rot_ab; vring. Qed.
Lemma tapply_swap_bc a b c : tapply swap_bc (M3 a b c) = M3 (vneg a) c b. Proof. unfold tapply, swap_bc; vring. Qed.
Lemma tapply_ofZ k m : tapply k m = mmul (ofZ (ztr k)) m.
Proof. unfold tapply. rewrite ofZ_tr. reflexivity. Qed.

(* k is a determinant s integer change of basis from c to c' *)
Definition moved (s : Z) (c c' : mat) : Prop := exists k, zdet k = s /\ c' = mmul (ofZ k) c.
Lemma moved_refl c : moved 1 c c.
Proof. exists zid. split; [reflexivity|]. rewrite ofZ_id, mmul_id_l. reflexivity. Qed.
Lemma moved_trans s s' a b c : moved s a b -> moved s' b c -> moved (s' * s) a c.
Proof.
  intros (k & D & ->) (k' & D' & ->). exists (zmul k' k). split.
  - rewrite zdet_mul, D, D'. reflexivity.
  - rewrite ofZ_mul, mmul_assoc. reflexivity.
Qed.
Lemma moved_tapply k c : moved (zdet k) c (tapply k c).
Proof. exists (ztr k). split; [apply zdet_tr|apply tapply_ofZ]. Qed.
Lemma moved_tapply1 k c : zdet k = 1%Z -> moved 1 c (tapply k c).
Proof. intros <-. apply moved_tapply. Qed.

(* ---------------- reciprocal cells ---------------- *)
Lemma zmul_inv_both k k' : zmul k' k = zid -> unimodular k -> zmul k k' = zid.
Proof.
  intros E U.
  assert (E2 : zmul (zmul k k') k = zmul zid k).
  { assert (A : forall x y z, zmul (zmul x y) z = zmul x (zmul y z)).
    { clear. intros [] [] []; unfold zmul; cbn [Base.z11 Base.z12 Base.z13 Base.z21 Base.z22 Base.z23 Base.z31 Base.z32 Base.z33]; f_equal; ring. }
    rewrite A, E. clear. destruct k; unfold zmul, zid; cbn [Base.z11 Base.z12 Base.z13 Base.z21 Base.z22 Base.z23 Base.z31 Base.z32 Base.z33]; f_equal; ring. }
  destruct (unimodular_inv k U) as (q & _ & Q).
  assert (R : forall x y, zmul x k = zmul y k -> x = y).
  { intros x y H. assert (H2 : mmul (ofZ x) (ofZ k) = mmul (ofZ y) (ofZ k)) by (rewrite <- !ofZ_mul, H; reflexivity).
    assert (D : det (ofZ k) <> 0) by (rewrite ofZ_det; destruct U as [-> | ->]; cbn; lra).
    apply mmul_cancel_r in H2; auto.
    destruct x, y. unfold ofZ, mk in H2. cbn in H2. injection H2 as H1' H2' H3' H4' H5' H6' H7' H8' H9'.
    f_equal; apply eq_IZR; assumption. }
  apply R. exact E2.
Qed.
Lemma reciprocal_moved k m r : unimodular k -> get_reciprocal m = Ok r ->
  exists k', zdet k' = zdet k /\ get_reciprocal (mmul (ofZ k) m) = Ok (mmul (ofZ k') r).
Proof.
  intros U E. destruct (unimodular_inv k U) as (q & Uq & Q).
  pose proof (zmul_inv_both k q Q U) as Q2.
  exists (ztr q). split.
  { rewrite zdet_tr. assert (D : (zdet q * zdet k)%Z = 1%Z) by (rewrite <- zdet_mul, Q; reflexivity).
    destruct U as [U|U], Uq as [Uq|Uq]; rewrite U, Uq in *; lia. }
  pose proof (reciprocal_dual _ _ E) as DU. pose proof (reciprocal_det _ _ E) as DD.
  assert (Dm : det m <> 0).
  { intros D. rewrite get_reciprocal_err in E by auto. discriminate. }
  apply reciprocal_unique.
  - rewrite det_mmul, ofZ_det. apply Rmult_integral_contrapositive_currified; auto.
    destruct U as [-> | ->]; cbn; lra.
  - rewrite tr_mmul, mmul_assoc, <- (mmul_assoc r), DU, <- ofZ_tr.
    assert (C : mmul (mscale (2 * PI) mid) (ofZ (ztr k)) = mscale (2 * PI) (ofZ (ztr k))).
    { generalize (ofZ (ztr k)) (2 * PI). clear. vring. }
    rewrite C.
    assert (C2 : mmul (ofZ (ztr q)) (mscale (2 * PI) (ofZ (ztr k))) = mscale (2 * PI) (mmul (ofZ (ztr q)) (ofZ (ztr k)))).
    { generalize (ofZ (ztr q)) (ofZ (ztr k)) (2 * PI). clear. vring. }
    rewrite C2, !ofZ_tr, <- tr_mmul, <- ofZ_mul, Q2, ofZ_id. reflexivity.
Qed.

Lemma recip_iff a b c u v w : get_reciprocal (M3 a b c) = Ok (M3 u v w) <->
  det (M3 a b c) <> 0 /\
  (dot u a = 2 * PI /\ dot u b = 0 /\ dot u c = 0) /\
  (dot v a = 0 /\ dot v b = 2 * PI /\ dot v c = 0) /\
  (dot w a = 0 /\ dot w b = 0 /\ dot w c = 2 * PI).
Proof.
  assert (X : mmul (M3 u v w) (tr (M3 a b c)) =
              mk (dot u a) (dot u b) (dot u c) (dot v a) (dot v b) (dot v c) (dot w a) (dot w b) (dot w c)).
  { clear. vring. }
  assert (Y : mscale (2 * PI) mid = mk (2 * PI) 0 0 0 (2 * PI) 0 0 0 (2 * PI)).
  { generalize (2 * PI). vring. }
  split.
  - intros E. split.
    { intros D. rewrite get_reciprocal_err in E by auto. discriminate. }
    apply reciprocal_dual in E. rewrite X, Y in E. unfold mk in E. injection E as E1 E2 E3 E4 E5 E6 E7 E8 E9. tauto.
  - intros (D & (E1 & E2 & E3) & (E4 & E5 & E6) & (E7 & E8 & E9)).
    apply reciprocal_unique; auto. rewrite X, Y, E1, E2, E3, E4, E5, E6, E7, E8, E9. reflexivity.
Qed.
Lemma det_cyc a b c : det (M3 b c a) = det (M3 a b c). Proof. vring. Qed.
Lemma recip_231 a b c u v w : get_reciprocal (M3 a b c) = Ok (M3 u v w) -> get_reciprocal (M3 b c a) = Ok (M3 v w u).
Proof. rewrite !recip_iff, (det_cyc a b c). tauto. Qed.
Lemma recip_312 a b c u v w : get_reciprocal (M3 a b c) = Ok (M3 u v w) -> get_reciprocal (M3 c a b) = Ok (M3 w u v).
Proof. intros H. apply recip_231, recip_231. exact H. Qed.
Lemma recip_flip_ab a b c u v w : get_reciprocal (M3 a b c) = Ok (M3 u v w) ->
  get_reciprocal (M3 (vneg a) (vneg b) c) = Ok (M3 (vneg u) (vneg v) w).
Proof.
  rewrite !recip_iff. replace (det (M3 (vneg a) (vneg b) c)) with (det (M3 a b c)) by vring.
  rewrite !dot_neg_l, !dot_neg_r. intros (D & H). split; auto. lra.
Qed.
Lemma recip_flip_ac a b c u v w : get_reciprocal (M3 a b c) = Ok (M3 u v w) ->
  get_reciprocal (M3 (vneg a) b (vneg c)) = Ok (M3 (vneg u) v (vneg w)).
Proof.
  rewrite !recip_iff. replace (det (M3 (vneg a) b (vneg c))) with (det (M3 a b c)) by vring.
  rewrite !dot_neg_l, !dot_neg_r. intros (D & H). split; auto. lra.
Qed.
Lemma recip_flip_bc a b c u v w : get_reciprocal (M3 a b c) = Ok (M3 u v w) ->
  get_reciprocal (M3 a (vneg b) (vneg c)) = Ok (M3 u (vneg v) (vneg w)).
Proof.
  rewrite !recip_iff. replace (det (M3 a (vneg b) (vneg c))) with (det (M3 a b c)) by vring.
  rewrite !dot_neg_l, !dot_neg_r. intros (D & H). split; auto. lra.
Qed.

(* ---------------- the choice of signs ---------------- *)
Definition uniform (al be ga : R) : Prop :=
  (al < 90 /\ be < 90 /\ ga < 90) \/ (90 <= al /\ 90 <= be /\ 90 <= ga).
Lemma trichotomy90 x :
  (Rltb x 90 = true /\ Rltb 90 x = false /\ Rleb x 90 = true /\ Rleb 90 x = false /\ x < 90) \/
  (Rltb x 90 = false /\ Rltb 90 x = false /\ Rleb x 90 = true /\ Rleb 90 x = true /\ x = 90) \/
  (Rltb x 90 = false /\ Rltb 90 x = true /\ Rleb x 90 = false /\ Rleb 90 x = true /\ 90 < x).
Proof.
  destruct (Rltb_spec x 90), (Rltb_spec 90 x), (Rleb_spec x 90), (Rleb_spec 90 x); try (exfalso; lra).
  - left; auto 10.
  - right; right; auto 10.
  - right; left; repeat split; auto; lra.
Qed.
Lemma sign_cases al be ga :
  (sign_matrix al be ga = Ok eye /\ uniform al be ga) \/
  (sign_matrix al be ga = Ok flip_ab /\ uniform (180 - al) (180 - be) ga) \/
  (sign_matrix al be ga = Ok flip_ac /\ uniform (180 - al) be (180 - ga)) \/
  (sign_matrix al be ga = Ok flip_bc /\ uniform al (180 - be) (180 - ga)).
Proof.
  destruct (trichotomy90 al) as [(A1 & A2 & A3 & A4 & A) | [(A1 & A2 & A3 & A4 & A) | (A1 & A2 & A3 & A4 & A)]],
           (trichotomy90 be) as [(B1 & B2 & B3 & B4 & B) | [(B1 & B2 & B3 & B4 & B) | (B1 & B2 & B3 & B4 & B)]],
           (trichotomy90 ga) as [(C1 & C2 & C3 & C4 & C) | [(C1 & C2 & C3 & C4 & C) | (C1 & C2 & C3 & C4 & C)]];
  unfold sign_matrix, andb3, uniform;
  rewrite A1, A2, A3, A4, B1, B2, B3, B4, C1, C2, C3, C4; cbn [andb orb];
  clear A1 A2 A3 A4 B1 B2 B3 B4 C1 C2 C3 C4;
  first [left; split; [reflexivity|lra] | right; left; split; [reflexivity|lra]
        | right; right; left; split; [reflexivity|lra] | right; right; right; split; [reflexivity|lra]].
Qed.
Lemma dots_cases bc ac ab :
  (dots_matrix bc ac ab = Ok cyc_231 /\ bc <= ac /\ bc <= ab) \/
  (dots_matrix bc ac ab = Ok cyc_312 /\ ac <= bc /\ ac <= ab) \/
  (dots_matrix bc ac ab = Ok eye /\ ab <= ac /\ ab <= bc).
Proof.
  unfold dots_matrix.
  destruct (Rleb_spec bc ac), (Rleb_spec bc ab), (Rleb_spec ac bc), (Rleb_spec ac ab), (Rleb_spec ab ac), (Rleb_spec ab bc);
    cbn [andb]; try (exfalso; lra); auto 10.
Qed.

(* ---------------- every branch is an integer change of basis ---------------- *)
(* What is required of the external Niggli reduction: it returns a basis of the same lattice,
   obtained with an integer matrix of determinant s. *)
Definition niggli_sound (niggli : option (mat -> R -> res mat)) (s : Z) : Prop :=
  forall f m e r, niggli = Some f -> f m e = Ok r -> moved s m r.

Lemma bind_ok {A B} (r : res A) (f : A -> res B) y : bind r f = Ok y -> exists x, r = Ok x /\ f x = Ok y.
Proof. destruct r; cbn; intros H; [eauto | discriminate]. Qed.
Lemma bind_err {A B} (r : res A) (f : A -> res B) e : bind r f = Err e -> r = Err e \/ exists x, r = Ok x /\ f x = Err e.
Proof. destruct r; cbn; intros H; [eauto | left; congruence]. Qed.
Ltac unbind H := apply bind_ok in H; destruct H as (? & ? & H).

Lemma oPFI_moved c c' : sc_conventional_oPFI c = Ok c' -> moved 1 c c'.
Proof.
  unfold sc_conventional_oPFI. intros H. unbind H. unbind H. injection H as <-.
  apply moved_tapply1. unfold order_matrix in *.
  repeat match goal with H : (if ?b then _ else _) = Ok _ |- _ => destruct b end;
    try discriminate; match goal with H : Ok _ = Ok _ |- _ => injection H as <- end; reflexivity.
Qed.
Lemma oC_moved c c' : sc_conventional_oC c = Ok c' -> moved 1 c c'.
Proof.
  unfold sc_conventional_oC. intros H. unbind H. unbind H. injection H as <-.
  apply moved_tapply1.
  repeat match goal with H : (if ?b then _ else _) = Ok _ |- _ => destruct b end;
    try discriminate; match goal with H : Ok _ = Ok _ |- _ => injection H as <- end; reflexivity.
Qed.
Lemma m_moved c c' ce e : sc_conventional_m c ce e = Ok c' -> moved 1 c c'.
Proof.
  unfold sc_conventional_m. intros H. unbind H. apply bind_ok in H. destruct H as (m1 & H1 & H).
  cbv zeta in H. unbind H. unbind H. injection H as <-.
  apply (moved_trans 1 1 _ (tapply m1 c)); [apply moved_tapply1|
    eapply (moved_trans 1 1); apply moved_tapply1; match goal with |- context [if ?b then _ else _] => destruct b end; reflexivity].
  repeat match goal with H : (if ?b then _ else _) = Ok _ |- _ => destruct b end;
    try discriminate; match goal with H : Ok _ = Ok _ |- _ => injection H as <- end; reflexivity.
Qed.
Lemma sign_det al be ga m : sign_matrix al be ga = Ok m -> zdet m = 1%Z.
Proof.
  intros H. destruct (sign_cases al be ga) as [(E & _) | [(E & _) | [(E & _) | (E & _)]]];
    rewrite E in H; injection H as <-; reflexivity.
Qed.
Lemma recip_of_moved k r c c1 : zdet k = 1%Z \/ zdet k = (-1)%Z -> get_reciprocal c = Ok r ->
  get_reciprocal (mmul (ofZ k) r) = Ok c1 -> moved (zdet k) c c1.
Proof.
  intros U E E1. destruct (reciprocal_moved k r c U) as (k' & D & E2).
  - apply reciprocal_involution; auto.
  - rewrite E2 in E1. injection E1 as <-. exists k'. auto.
Qed.
Lemma sca_moved c c' e : sc_conventional_a c e = Ok c' -> moved 1 c c'.
Proof.
  unfold sc_conventional_a. intros H. apply bind_ok in H. destruct H as (r & R & H).
  unbind H. apply bind_ok in H. destruct H as (m1 & M1 & H). cbv zeta in H. unbind H.
  apply bind_ok in H. destruct H as (m2 & M2 & H). apply bind_ok in H. destruct H as (c1 & C1 & H).
  injection H as <-. apply (moved_trans 1 1 _ c1).
  - apply sign_det in M1. rewrite tapply_ofZ in C1. rewrite <- zdet_tr in M1. rewrite <- M1.
    apply (recip_of_moved (ztr m1) r); auto.
  - apply moved_tapply1.
    repeat match goal with H : (if ?b then _ else _) = Ok _ |- _ => destruct b end;
    try discriminate; match goal with H : Ok _ = Ok _ |- _ => injection H as <- end; reflexivity.
Qed.
Lemma hR_moved c c' e e' : sc_conventional_hR c e e' = Ok c' -> moved 1 c c'.
Proof.
  unfold sc_conventional_hR. intros H. unbind H.
  match goal with H : (if ?b then _ else _) = Ok _ |- _ => destruct b; [discriminate|] end.
  cbv zeta in H. unbind H. injection H as <-. apply moved_tapply1.
  repeat match goal with H : (if ?b then _ else _) = Ok _ |- _ => destruct b end;
    try discriminate; match goal with H : Ok _ = Ok _ |- _ => injection H as <- end; reflexivity.
Qed.
Lemma no_hR_moved c fa ce e c' : sc_conventional_no_hR c fa ce e = Ok c' -> moved 1 c c'.
Proof.
  unfold sc_conventional_no_hR. intros H.
  destruct (mem fa ["c"; "t"] || _); [injection H as <-; apply moved_refl|].
  destruct (String.eqb fa "o").
  { destruct (mem ce _); [apply oPFI_moved; auto|].
    destruct (String.eqb ce "C"); [apply oC_moved; auto|].
    destruct (String.eqb ce "A"); [|discriminate].
    apply (moved_trans 1 1 _ (tapply cyc_231 c)); [apply moved_tapply1; reflexivity|apply oC_moved; auto]. }
  destruct (String.eqb fa "m"); [eapply m_moved; eauto|].
  destruct (String.eqb fa "a"); [eapply sca_moved; eauto|discriminate].
Qed.
Lemma hpkot_a_moved niggli s c c' : niggli_sound niggli s -> (s = 1 \/ s = -1)%Z ->
  hpkot_conventional_a niggli c = Ok c' -> moved s c c'.
Proof.
  unfold hpkot_conventional_a. intros N Sg H. apply bind_ok in H. destruct H as (r & R & H).
  apply bind_ok in H. destruct H as (r1 & R1 & H). apply bind_ok in H. destruct H as (c1 & C1 & H).
  apply bind_ok in H. destruct H as (m2 & M2 & H). cbv zeta in H.
  unbind H. unbind H. apply bind_ok in H. destruct H as (m3 & M3 & H). injection H as <-.
  rewrite <- (Z.mul_1_l s). apply (moved_trans s 1 _ c1).
  - unfold get_niggli in R1. change (lower "spglib") with "spglib" in R1.
    change (String.eqb "spglib" "spglib") with true in R1. cbv iota in R1.
    destruct niggli as [f|]; [|discriminate].
    destruct (N f _ _ _ eq_refl R1) as (k & D & ->). rewrite <- D.
    apply (recip_of_moved k r); auto. rewrite D. exact Sg.
  - apply (moved_trans 1 1 _ (tapply m2 c1)); apply moved_tapply1; [|eapply sign_det; eauto].
    match type of M2 with dots_matrix ?x ?y ?z = _ => destruct (dots_cases x y z) as [(E & _) | [(E & _) | (E & _)]] end;
    rewrite E in M2; injection M2 as <-; reflexivity.
Qed.

(* ---------------- re-expressed positions ---------------- *)
Lemma reexpress_ok ps old new qs : reexpress ps old new = Ok qs ->
  Forall2 (fun p q => vmat q new = vmat p old) ps qs.
Proof.
  unfold reexpress. intros H. apply bind_ok in H. destruct H as (i & I & H). injection H as <-.
  apply minv_ok in I. destruct I as (D & ->).
  induction ps; cbn; constructor; auto.
  rewrite vmat_mmul, minv_l by auto. apply vmat_id.
Qed.
Lemma moved_crystal {T} s c c' ps qs (ts : list T) : (s = 1 \/ s = -1)%Z -> moved s c c' ->
  Forall2 (fun p q => vmat q c' = vmat p c) ps qs -> same_crystal c ps ts c' qs ts.
Proof.
  intros S (k & D & ->) F x t. assert (U : unimodular k) by (unfold unimodular; rewrite D; exact S).
  destruct (unimodular_inv k U) as (k' & _ & Ek).
  split; intros (i & p & n & P & Q & E).
  - destruct (Forall2_nth_l _ _ _ F _ _ P) as (q & Pq & Eq).
    exists i, q, (zvmat n k'). repeat split; auto. rewrite E, !vmat_add, Eq. f_equal.
    rewrite ofZv_mat, vmat_mmul, <- mmul_assoc, <- ofZ_mul, Ek, ofZ_id, mmul_id_l. reflexivity.
  - destruct (Forall2_nth_r _ _ _ F _ _ P) as (q & Pq & Eq).
    exists i, q, (zvmat n k). repeat split; auto. rewrite E, !vmat_add, Eq. f_equal.
    rewrite ofZv_mat, !vmat_mmul. reflexivity.
Qed.

(* ---------------- the atoms of the new cell ---------------- *)
Lemma to_row_val p : to_row (PList [PFloat (vx p); PFloat (vy p); PFloat (vz p)]) = Ok p.
Proof. destruct p; reflexivity. Qed.
Lemma positions_of_val ps : positions_of (pos_val ps) = Ok ps.
Proof.
  unfold positions_of, pos_val. cbn [elements]. induction ps; cbn [map mapM]; [reflexivity|].
  rewrite to_row_val, IHps. reflexivity.
Qed.

Lemma last_index_spec l : forall i t j, last_index l i t = Some j ->
  (i <= j)%nat /\ nth_error l (j - i) = Some t /\ forall j', (j - i < j')%nat -> nth_error l j' <> Some t.
Proof.
  assert (N : forall l i t, last_index l i t = None -> forall j, nth_error l j <> Some t).
  { clear l. intros l. induction l as [|u l IH]; intros i t H j; [destruct j; discriminate|].
    cbn [last_index] in H. destruct j as [|j]; cbn [nth_error].
    - destruct (last_index l (S i) t); [discriminate|]. destruct (Z.eqb_spec t u); congruence.
    - destruct (last_index l (S i) t) eqn:E; [discriminate|]. eapply IH; eauto. }
  induction l as [|u l IH]; intros i t j H; cbn [last_index] in H; [discriminate|].
  destruct (last_index l (S i) t) as [k|] eqn:E.
  - injection H as ->. destruct (IH _ _ _ E) as (A & B & C). split; [lia|].
    replace (j - i)%nat with (S (j - S i))%nat by lia. split; [exact B|].
    intros [|j'] L; [lia|]. cbn [nth_error]. apply C. lia.
  - destruct (Z.eqb_spec t u); [|discriminate]. injection H as <-. split; [lia|].
    rewrite Nat.sub_diag. cbn. split; [congruence|]. intros [|j'] L; [lia|]. cbn. eapply N; eauto.
Qed.
Lemma last_index_some l : forall i t, In t l -> exists j, last_index l i t = Some j.
Proof.
  induction l as [|u l IH]; intros i t H; [destruct H|]. destruct H as [->|H]; cbn [last_index].
  - destruct (last_index l (S i) t); eauto. rewrite Z.eqb_refl. eauto.
  - destruct (IH (S i) t H) as (j & ->). eauto.
Qed.

Definition items_by (mapping : Z -> option nat) (v : pyval) (types : list Z) (l : list pyval) : Prop :=
  Forall2 (fun t x => exists j, mapping t = Some j /\ nth_error (elements v) j = Some x) types l.
Lemma items_ok mapping v types l :
  mapM (fun t => match mapping t with Some i => py_item v i | None => Err KeyError end) types = Ok l <->
  items_by mapping v types l.
Proof.
  unfold items_by. revert l. induction types as [|t types IH]; intros l; cbn [mapM].
  - split; intros H; [injection H as <-; constructor|inversion H; reflexivity].
  - split.
    + intros H. apply bind_ok in H. destruct H as (x & X & H). apply bind_ok in H. destruct H as (l' & L & H).
      injection H as <-. constructor; [|apply IH; auto].
      destruct (mapping t) as [j|]; [|discriminate]. unfold py_item in X.
      destruct (nth_error (elements v) j) eqn:E; [|discriminate]. injection X as <-. eauto.
    + intros H. inversion H as [|? x ? l' (j & J & E) F]; subst. rewrite J. apply IH in F. rewrite F.
      unfold py_item at 1. rewrite E. reflexivity.
Qed.
Lemma populate_spec mapping types todo : forall acc new, NoDup (keys todo) ->
  populate mapping types todo acc = Ok new ->
  (forall key v, key <> "positions" -> lookup key todo = Some v ->
     exists l, lookup key new = Some (PList l) /\ items_by mapping v types l) /\
  (forall key, key = "positions" \/ lookup key todo = None -> lookup key new = lookup key acc).
Proof.
  induction todo as [|[k v] todo IH]; intros acc new ND H; cbn [populate] in H.
  - injection H as <-. split; [intros key w _ F; discriminate F | auto].
  - cbn [keys map fst] in ND. inversion ND as [|? ? NI ND']; subst.
    destruct (String.eqb_spec k "positions") as [->|NE].
    + destruct (IH _ _ ND' H) as (A & B). split.
      * intros key w NE F. cbn [lookup] in F. destruct (String.eqb_spec key "positions"); [contradiction|]. eauto.
      * intros key [->|F]; [apply B; auto|]. cbn [lookup] in F. destruct (String.eqb key "positions"); [discriminate|].
        apply B; auto.
    + apply bind_ok in H. destruct H as (l & L & H). apply items_ok in L.
      destruct (IH _ _ ND' H) as (A & B). split.
      * intros key w NP F. cbn [lookup] in F. destruct (String.eqb_spec key k) as [->|NK].
        -- injection F as <-. exists l. split; auto. rewrite B.
           ++ rewrite lookup_set, String.eqb_refl. reflexivity.
           ++ right. apply lookup_none. exact NI.
        -- eauto.
      * intros key [->|F].
        -- rewrite B by auto. rewrite lookup_set.
           destruct (String.eqb_spec "positions" k) as [E|E]; [congruence|reflexivity].
        -- cbn [lookup] in F. destruct (String.eqb_spec key k) as [EK|NK]; [discriminate|].
           rewrite B by auto. rewrite lookup_set.
           destruct (String.eqb_spec key k) as [E|E]; [congruence|reflexivity].
Qed.
Lemma make_atoms_spec mapping ps types atoms new : NoDup (keys atoms) ->
  make_atoms mapping ps types atoms = Ok new ->
  lookup "positions" new = Some (pos_val ps) /\
  (forall key v, key <> "positions" -> lookup key atoms = Some v ->
     exists l, lookup key new = Some (PList l) /\ items_by mapping v types l) /\
  (lookup "spglib_types" atoms = None -> lookup "spglib_types" new = Some (PList (map PNpInt types))) /\
  (forall key, key <> "positions" -> key <> "spglib_types" -> lookup key atoms = None -> lookup key new = None).
Proof.
  intros ND H. unfold make_atoms in H. apply bind_ok in H. destruct H as (n0 & P & H). injection H as H.
  destruct (populate_spec _ _ _ _ _ ND P) as (A & B).
  assert (L : forall key, lookup key new =
     if String.eqb key "spglib_types" then match lookup key n0 with Some v => Some v | None => Some (PList (map PNpInt types)) end
     else lookup key n0).
  { intros key. subst new. destruct (String.eqb_spec key "spglib_types") as [->|NE].
    - destruct (lookup "spglib_types" n0) eqn:E; [exact E|]. rewrite lookup_set, String.eqb_refl. reflexivity.
    - destruct (lookup "spglib_types" n0) eqn:E; [reflexivity|]. rewrite lookup_set.
      destruct (String.eqb_spec key "spglib_types"); [contradiction|reflexivity]. }
  split; [|split; [|split]].
  - rewrite L. cbn [String.eqb]. change (String.eqb "positions" "spglib_types") with false. cbv iota.
    rewrite B by auto. reflexivity.
  - intros key v NP F. destruct (A key v NP F) as (l & E & I). exists l. split; auto.
    rewrite L, E. destruct (String.eqb key "spglib_types"); reflexivity.
  - intros F. rewrite L, String.eqb_refl. rewrite B by auto. reflexivity.
  - intros key NP NS F. rewrite L. destruct (String.eqb_spec key "spglib_types"); [contradiction|].
    rewrite B by auto. cbn [lookup]. destruct (String.eqb_spec key "positions"); [contradiction|reflexivity].
Qed.
