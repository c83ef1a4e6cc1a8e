(* P_FloatAtoms.v : property C81, ensure_000, cure_negative and get_vector in double precision *)
From Verif Require Import Base M_Voronoi M_Positions P_Positions M_Float M_FloatAtoms P_FloatPositions.
From Flocq Require Import Core.
From Coq Require Import Lra Lia.
Open Scope R_scope.

(* all the numbers of a position are doubles *)
Definition double3 (p : vec) : Prop := forall a, is_double (comp a p).
(* half the distance of the doubles near x: the error of one operation with the exact result x *)
Definition ulp_half (x : R) : R := Rabs x / 2 ^ 53 + bpow radix2 (-1075).

#[local] Instance prec53' : Prec_gt_0 53 := eq_refl.
#[local] Instance valid64' : Valid_exp (FLT_exp (-1074) 53) := FLT_exp_valid (-1074) 53.
Lemma comp_rnd3 a v : comp a (rnd3 v) = rnd64 (comp a v).
Proof. destruct a; reflexivity. Qed.
Lemma rnd64_0 : rnd64 0 = 0.
Proof. apply rnd64_id, fmt0. Qed.
Lemma rnd64_opp x : rnd64 (- x) = - rnd64 x.
Proof. unfold rnd64. apply round_NE_opp. Qed.
Lemma rnd3_double v : double3 (rnd3 v).
Proof. intros a. rewrite comp_rnd3. apply double_fmt, rnd64_fmt. Qed.

(* ---------- ensure_000 ---------- *)
Lemma trunc_double x : is_double x -> is_double (IZR (Ztrunc x)).
Proof.
  intros D. destruct D as (m & e & E & M & EM). destruct (Z.le_gt_cases 0 e) as [P|P].
  - exists m, e. split; [|auto]. rewrite E, <- IZR_Zpower, <- mult_IZR, Ztrunc_IZR by auto. reflexivity.
  - exists (Ztrunc x), 0%Z. split; [cbn; ring|]. split; [|lia].
    assert (A : Rabs (IZR (Ztrunc x)) <= Rabs x).
    { destruct (Rle_lt_dec 0 x) as [Q|Q].
      - rewrite Ztrunc_floor by auto. assert (0 <= Zfloor x)%Z by (apply Zfloor_lub; auto). apply IZR_le in H. rewrite !Rabs_right by lra. apply Zfloor_lb.
      - rewrite Ztrunc_ceil by lra. assert (Zceil x <= 0)%Z by (apply Zceil_glb; lra). apply IZR_le in H. rewrite !Rabs_left1 by lra. pose proof (Zceil_ub x). lra. }
    assert (B : Rabs x < IZR (2 ^ 53)).
    { rewrite E, Rabs_mult, <- abs_IZR, (Rabs_right (bpow _ _)) by (apply Rle_ge, bpow_ge_0).
      assert (bpow radix2 e <= 1) by (change 1 with (bpow radix2 0); apply bpow_le; lia). apply IZR_lt in M. assert (0 <= IZR (Z.abs m)) by (apply IZR_le; lia).
      pose proof (bpow_gt_0 radix2 e). nra. }
    rewrite <- abs_IZR in A. apply lt_IZR. lra.
Qed.
(* the rounded result of the subtraction of the integer below, which is taken once *)
Lemma fwrap_floor x : is_double x -> fwrap x = rnd64 (x - IZR (Zfloor x)).
Proof.
  intros D. unfold fwrap. rewrite (rnd64_id (IZR (Ztrunc x))) by (apply double_fmt, trunc_double; auto).
  change (x - IZR (Ztrunc x)) with (fmod1 x). rewrite (rnd64_id (fmod1 x)) by (apply double_fmt, fmod1_double; auto).
  destruct (fmod1_range x) as (R1 & R2 & R3). destruct (Rltb_spec (fmod1 x) 0) as [L|L].
  - f_equal. assert (F : Zfloor x = (Ztrunc x - 1)%Z) by (apply Zfloor_imp; replace (Ztrunc x - 1 + 1)%Z with (Ztrunc x) by lia; rewrite minus_IZR; unfold fmod1 in *; lra).
    rewrite F, minus_IZR. unfold fmod1. ring.
  - assert (F : Zfloor x = Ztrunc x) by (apply Zfloor_imp; rewrite plus_IZR; unfold fmod1 in *; lra).
    rewrite F. change (x - IZR (Ztrunc x)) with (fmod1 x). symmetry. apply rnd64_id, double_fmt, fmod1_double; auto.
Qed.
Lemma fwrap_range x : is_double x -> 0 <= fwrap x <= 1.
Proof.
  intros D. rewrite fwrap_floor by auto. pose proof (Zfloor_lb x). pose proof (Zfloor_ub x). split; [apply rnd64_ge; [apply fmt0|lra]|apply rnd64_le; [apply fmt1|lra]].
Qed.
Lemma fwrap_double x : is_double x -> is_double (fwrap x).
Proof. intros D. rewrite fwrap_floor by auto. apply double_fmt, rnd64_fmt. Qed.
Lemma fwrap_inside x : is_double x -> 0 <= x < 1 -> fwrap x = x.
Proof. intros D H. rewrite fwrap_floor by auto. rewrite (Zfloor_imp 0) by (cbn; lra). rewrite Rminus_0_r. apply rnd64_id, double_fmt, D. Qed.
Lemma fwrap_1 : fwrap 1 = 0.
Proof. rewrite fwrap_floor by (apply double_fmt, fmt1). rewrite (Zfloor_IZR 1). rewrite Rminus_diag_eq by reflexivity. apply rnd64_0. Qed.

(* what ensure_000 does with every coordinate *)
Theorem C81_ensure_000 : forall positions i p, nth_error positions i = Some p -> double3 p ->
  exists q, nth_error (fensure_000 positions) i = Some q /\ double3 q /\
  forall a, 0 <= comp a q <= 1 /\
    (exists z : Z, Rabs (comp a q - (comp a p + IZR z)) <= / 2 ^ 53 + bpow radix2 (-1075)) /\
    (0 <= comp a p -> comp a q < 1 /\ exists z : Z, comp a q = comp a p + IZR z).
Proof.
  intros positions i p H D. unfold fensure_000. rewrite nth_error_map, H. cbn [option_map]. eexists. split; [reflexivity|].
  assert (E : forall a, comp a (V3 (fwrap (vx p)) (fwrap (vy p)) (fwrap (vz p))) = fwrap (comp a p)) by (intros []; reflexivity).
  split; [intros a; rewrite E; apply fwrap_double, D|]. intros a. rewrite E. specialize (D a). set (x := comp a p) in *. split; [apply fwrap_range, D|]. split.
  - exists (- Zfloor x)%Z. rewrite fwrap_floor by auto. rewrite opp_IZR. pose proof (rnd64_error (x - IZR (Zfloor x))) as R1. pose proof (Zfloor_lb x). pose proof (Zfloor_ub x).
    eapply Rle_trans; [exact R1|]. rewrite Rabs_right by lra. apply Rplus_le_compat_r. rewrite <- (Rmult_1_l (/ 2 ^ 53)). unfold Rdiv. apply Rmult_le_compat_r; [left; apply Rinv_0_lt_compat, pow_lt; lra|lra].
  - intros N. rewrite fwrap_floor by auto. pose proof (fmod1_double x D) as F. unfold fmod1 in F. rewrite Ztrunc_floor in F by auto.
    rewrite rnd64_id by (apply double_fmt, F). pose proof (Zfloor_ub x). split; [lra|]. exists (- Zfloor x)%Z. rewrite opp_IZR. ring.
Qed.
Print Assumptions C81_ensure_000.
(* doubles that differ by a lattice vector still become equal *)
Theorem C81_canonical : forall p (z : zvec), double3 p -> double3 (vadd p (ofZv z)) ->
  fensure_000 [vadd p (ofZv z)] = fensure_000 [p].
Proof.
  intros p z D E. unfold fensure_000. cbn [map]. f_equal.
  assert (W : forall x n, is_double x -> is_double (x + IZR n) -> fwrap (x + IZR n) = fwrap x).
  { intros x n A B. rewrite !fwrap_floor by auto. f_equal.
    assert (F : Zfloor (x + IZR n) = (Zfloor x + n)%Z) by (apply Zfloor_imp; rewrite !plus_IZR; pose proof (Zfloor_lb x); pose proof (Zfloor_ub x); lra).
    rewrite F, plus_IZR. ring. }
  f_equal; [apply (W _ _ (D X1) (E X1))|apply (W _ _ (D X2) (E X2))|apply (W _ _ (D X3) (E X3))].
Qed.
Print Assumptions C81_canonical.
(* two calls are enough to get all coordinates into [0, 1) *)
Theorem C81_two_calls : forall positions, (forall p, In p positions -> double3 p) ->
  (forall q a, In q (fensure_000 (fensure_000 positions)) -> 0 <= comp a q < 1) /\
  fensure_000 (fensure_000 (fensure_000 positions)) = fensure_000 (fensure_000 positions).
Proof.
  intros positions D.
  assert (T : forall x, is_double x -> 0 <= fwrap (fwrap x) < 1).
  { intros x Dx. destruct (fwrap_range x Dx) as (A & [B|B]); [rewrite fwrap_inside; [lra|apply fwrap_double; auto|lra]|rewrite B, fwrap_1; lra]. }
  split.
  - intros q a H. unfold fensure_000 in H. rewrite map_map in H. apply in_map_iff in H. destruct H as (p & <- & H). specialize (D p H a).
    destruct a; apply T; exact D.
  - unfold fensure_000. rewrite !map_map. apply map_ext_in. intros p H. specialize (D p H). cbn [vx vy vz].
    assert (W : forall x, is_double x -> fwrap (fwrap (fwrap x)) = fwrap (fwrap x)) by (intros x Dx; apply fwrap_inside; [apply fwrap_double, fwrap_double; auto|apply T; auto]).
    f_equal; [apply W, (D X1)|apply W, (D X2)|apply W, (D X3)].
Qed.
Print Assumptions C81_two_calls.
(* one is not: an atom close to the origin goes to the next cell, and a second call takes it back *)
Theorem C81_one_call_refuted : exists p, double3 p /\ exists q, fensure_000 [p] = [q] /\ comp X1 q = 1 /\ fensure_000 [q] <> [q].
Proof.
  destruct C64_once_refuted as (y & D & E). exists (V3 y 0 0). split.
  { intros []; cbn; [exact D| |]; apply double_fmt, fmt0. }
  eexists. split; [reflexivity|]. cbn [comp vx].
  assert (W : fwrap y = 1).
  { rewrite fwrap_floor by auto. rewrite <- E. unfold fremainder1. destruct (Rltb_spec (fmod1 y) 0) as [L|L].
    - f_equal. destruct (fmod1_range y) as (R1 & _). unfold fmod1 in *.
      assert (F : Zfloor y = (Ztrunc y - 1)%Z) by (apply Zfloor_imp; replace (Ztrunc y - 1 + 1)%Z with (Ztrunc y) by lia; rewrite minus_IZR; lra).
      rewrite F, minus_IZR. ring.
    - exfalso. unfold fremainder1 in E. destruct (fmod1_range y) as (R1 & _). destruct (Rltb_spec (fmod1 y) 0); lra. }
  split; [exact W|]. unfold fensure_000. cbn [map vx]. rewrite W, fwrap_1. intros C. injection C as C _ _. lra.
Qed.
Print Assumptions C81_one_call_refuted.

(* ---------- cure_negative ---------- *)
Lemma fcure_form b positions new : fcure_negative b positions = Ok new ->
  exists m, (forall a, smallest a positions (comp a m)) /\
    new = map (fun q => rnd3 (vadd q (V3 (cure1 (vx m)) (cure1 (vy m)) (cure1 (vz m))))) positions.
Proof.
  destruct positions as [|p l]; [discriminate|]. unfold fcure_negative. intros H.
  exists (fold_left vmin l p). split; [intros a; apply fold_min|]. destruct l, b; try discriminate; congruence.
Qed.
Theorem C81_cure_negative : forall b positions new, (forall p, In p positions -> double3 p) -> fcure_negative b positions = Ok new ->
  (forall q, In q new -> double3 q /\ forall a, 0 <= comp a q) /\
  (forall a lo, smallest a positions lo ->
     (0 <= lo -> map (comp a) new = map (comp a) positions) /\
     (lo < 0 -> smallest a new 0)) /\
  (exists s, forall i p, nth_error positions i = Some p -> exists q, nth_error new i = Some q /\
     forall a, Rabs (comp a q - (comp a p + comp a s)) <= ulp_half (comp a p + comp a s)) /\
  fcure_negative true new = Ok new.
Proof.
  intros b positions new D H. destruct (fcure_form _ _ _ H) as (m & M & E). set (s := V3 (cure1 (vx m)) (cure1 (vy m)) (cure1 (vz m))) in *.
  assert (CS : forall a, comp a s = if Rltb (comp a m) 0 then - comp a m else 0) by (intros []; reflexivity).
  assert (NN : forall q, In q new -> double3 q /\ forall a, 0 <= comp a q).
  { intros q Q. rewrite E in Q. apply in_map_iff in Q. destruct Q as (p & <- & Q). split; [apply rnd3_double|]. intros a. rewrite comp_rnd3, comp_add, CS.
    apply rnd64_ge; [apply fmt0|]. destruct (M a) as [A _]. specialize (A p Q). destruct (Rltb_spec (comp a m) 0); lra. }
  split; [exact NN|]. split; [|split].
  - intros a lo S. pose proof (smallest_unique _ _ _ _ S (M a)) as ->. split; intros L.
    + rewrite E, map_map. apply map_ext_in. intros p P. rewrite comp_rnd3, comp_add, CS. destruct (Rltb_spec (comp a m) 0); [lra|]. rewrite Rplus_0_r. apply rnd64_id, double_fmt, (D p P a).
    + split; [intros q Q; apply NN, Q|]. destruct (M a) as [_ (w & W1 & W2)]. exists (rnd3 (vadd w s)). split; [rewrite E; apply in_map_iff; eauto|].
      rewrite comp_rnd3, comp_add, CS, W2. destruct (Rltb_spec (comp a m) 0); [|lra]. replace (comp a m + - comp a m) with 0 by ring. apply rnd64_0.
  - exists s. intros i p P. rewrite E, nth_error_map, P. cbn [option_map]. eexists. split; [reflexivity|]. intros a. rewrite comp_rnd3, comp_add. apply rnd64_error.
  - assert (S : exists new2, fcure_negative true new = Ok new2).
    { rewrite E. destruct positions as [|p l]; [discriminate|]. cbn [map]. unfold fcure_negative. destruct (map _ l); eauto. }
    destruct S as [new2 S]. rewrite S. f_equal. destruct (fcure_form _ _ _ S) as (m2 & M2 & ->).
    rewrite <- (map_id new) at 2. apply map_ext_in. intros q Q. apply comp_ext. intros a. rewrite comp_rnd3, comp_add, comp_cure.
    destruct (M2 a) as [_ (w & W1 & W2)]. destruct (NN w W1) as (_ & A). specialize (A a). rewrite W2 in A. unfold cure1. destruct (Rltb_spec (comp a m2) 0); [lra|].
    rewrite Rplus_0_r. apply rnd64_id, double_fmt, (proj1 (NN q Q)).
Qed.
Print Assumptions C81_cure_negative.

(* ---------- get_vector ---------- *)
Lemma fget_inv pos a b r v : fget_relative pos a b r = Ok v -> exists p1 p2, np_index pos a = Ok p1 /\ np_index pos b = Ok p2 /\
  v = rnd3 (vsub (rnd3 (vadd (rnd3 (ofZv r)) p2)) p1).
Proof.
  unfold fget_relative. destruct (np_index pos b) as [p2|]; [|discriminate]. destruct (np_index pos a) as [p1|]; [|discriminate].
  cbn [bind]. intros H. exists p1, p2. repeat split; congruence.
Qed.
Lemma np_index_in (l : list vec) i p : np_index l i = Ok p -> In p l.
Proof.
  unfold np_index. intros H. repeat match type of H with context [match ?x with _ => _ end] => destruct x eqn:?; try discriminate end; injection H as <-; eapply nth_error_In; eauto.
Qed.
(* within one cell the vector back is the opposite one *)
Theorem C81_within_the_cell : forall pos a b v w, (forall p, In p pos -> double3 p) ->
  fget_relative pos a b (Zv 0 0 0) = Ok v -> fget_relative pos b a (Zv 0 0 0) = Ok w -> w = vneg v.
Proof.
  intros pos a b v w D HV HW. apply fget_inv in HV, HW. destruct HV as (p1 & p2 & A & B & ->), HW as (q2 & q1 & A' & B' & ->).
  assert (q1 = p1) by congruence. assert (q2 = p2) by congruence. subst.
  pose proof (D _ (np_index_in _ _ _ A)) as D1. pose proof (D _ (np_index_in _ _ _ B)) as D2.
  apply comp_ext. intros c. assert (N : forall u, comp c (vneg u) = - comp c u) by (intros u; destruct c; reflexivity).
  assert (S : forall u v, comp c (vsub u v) = comp c u - comp c v) by (intros u v; destruct c; reflexivity).
  assert (O : comp c (rnd3 (ofZv (Zv 0 0 0))) = 0) by (rewrite comp_rnd3; destruct c; apply rnd64_0).
  rewrite N, !comp_rnd3, !S, !comp_rnd3, !comp_add, O, !Rplus_0_l, !(rnd64_id (comp c _)) by (apply double_fmt; auto).
  rewrite <- rnd64_opp. f_equal. ring.
Qed.
Print Assumptions C81_within_the_cell.
(* in general it is so up to the rounding of the two sums *)
Theorem C81_vector_accuracy : forall pos a b r v p1 p2, np_index pos a = Ok p1 -> np_index pos b = Ok p2 -> double3 (ofZv r) ->
  fget_relative pos a b r = Ok v -> forall c, exists t, Rabs (t - (comp c (ofZv r) + comp c p2)) <= ulp_half (comp c (ofZv r) + comp c p2) /\
  Rabs (comp c v - (t - comp c p1)) <= ulp_half (t - comp c p1).
Proof.
  intros pos a b r v p1 p2 A B DR H c. apply fget_inv in H. destruct H as (q1 & q2 & A' & B' & ->).
  assert (q1 = p1) by congruence. assert (q2 = p2) by congruence. subst.
  assert (S : forall u v, comp c (vsub u v) = comp c u - comp c v) by (intros u v; destruct c; reflexivity).
  exists (rnd64 (comp c (ofZv r) + comp c p2)). split; [apply rnd64_error|].
  rewrite comp_rnd3, S, comp_rnd3, comp_add, comp_rnd3, (rnd64_id (comp c (ofZv r))) by (apply double_fmt; auto). apply rnd64_error.
Qed.
Print Assumptions C81_vector_accuracy.
(* it is not exactly so between cells: atom 1 is at one place with the copy of atom 2, and not the other way round *)
Lemma round_up_lost : rnd64 (1 + bpow radix2 (-60)) = 1.
Proof.
  assert (P60 : bpow radix2 (-60) = / 1152921504606846976) by reflexivity.
  set (x := 1 + bpow radix2 (-60)). assert (F : fmt (rnd64 x)) by apply rnd64_fmt.
  assert (L : 1 <= rnd64 x) by (apply rnd64_ge; [apply fmt1|unfold x; lra]).
  assert (N : Rabs (rnd64 x - x) <= Rabs (1 - x)).
  { pose proof (round_N_pt radix2 (FLT_exp (-1074) 53) (fun x => negb (Z.even x)) x) as (_ & H). apply H. apply fmt1. }
  replace (1 - x) with (- / 1152921504606846976) in N by (unfold x; lra). rewrite (Rabs_left (- / _)) in N by lra.
  assert (UB : rnd64 x <= 1 + 2 * / 1152921504606846976).
  { unfold Rabs in N. destruct (Rcase_abs (rnd64 x - x)); unfold x in *; lra. }
  destruct L as [L|L]; [|symmetry; exact L]. exfalso.
  destruct (multiple (rnd64 x) 0 F ltac:(lia)) as (m & E); [rewrite Rabs_right; change (bpow radix2 0) with 1; lra|].
  change (bpow radix2 (0 - 52)) with (/ 4503599627370496) in E.
  assert (4503599627370496 < m)%Z by (apply lt_IZR; lra). assert (m < 4503599627370497)%Z by (apply lt_IZR; lra). lia.
Qed.
Theorem C81_opposite_refuted : exists pos r v w, (forall p, In p pos -> double3 p) /\
  fget_relative pos 0 1 r = Ok v /\ fget_relative pos 1 0 (zopp r) = Ok w /\ v = V3 0 0 0 /\ w <> V3 0 0 0.
Proof.
  set (t := bpow radix2 (-60)). assert (T : 0 < t) by apply bpow_gt_0. assert (FT : fmt t) by (apply double_fmt; exists 1%Z, (-60)%Z; split; [unfold t; ring|split; lia]).
  assert (O1 : rnd64 1 = 1) by apply rnd64_id, fmt1.
  assert (OM : rnd64 (-1) = -1) by (replace (-1) with (- (1)) by ring; rewrite rnd64_opp, O1; ring).
  assert (L : rnd64 (1 + t) = 1) by exact round_up_lost. clearbody t.
  exists [V3 1 0 0; V3 t 0 0], (Zv 1 0 0). do 2 eexists. split; [|split; [reflexivity|split; [reflexivity|split]]].
  - intros p [<-|[<-|[]]] []; cbn; apply double_fmt; auto using fmt0, fmt1.
  - unfold rnd3, vsub, vadd, ofZv; cbn. rewrite O1, L. replace (1 - 1) with 0 by ring. rewrite !rnd64_0. replace (0 + 0) with 0 by ring. rewrite !rnd64_0. replace (0 - 0) with 0 by ring. rewrite !rnd64_0. reflexivity.
  - unfold rnd3, vsub, vadd, ofZv, zopp; cbn. rewrite OM. replace (-1 + 1) with 0 by ring. rewrite !rnd64_0, Rminus_0_l, rnd64_opp, (rnd64_id t FT). intros C. injection C as C _. lra.
Qed.
Print Assumptions C81_opposite_refuted.
Example C81_case : fensure_000 [V3 (- (5/4)) 2 (19/8)] = [V3 (3/4) 0 (3/8)] /\ fcure_negative false [V3 (-1) (1/2) 0; V3 (1/4) (1/2) 0] = Ok [V3 0 (1/2) 0; V3 (5/4) (1/2) 0].
Proof.
  assert (F : forall m, (Z.abs m < 1000)%Z -> fmt (IZR m / 8)) by (intros m H; apply double_fmt; exists m, (-3)%Z; split; [cbn; lra|split; lia]).
  split.
  - unfold fensure_000. cbn [map vx vy vz]. f_equal. f_equal; rewrite fwrap_floor.
    + rewrite (Zfloor_imp (-2)) by (cbn [Z.add]; cbn; lra). replace (- (5/4) - -2) with (IZR 6 / 8) by lra. rewrite rnd64_id by (apply F; lia). lra.
    + apply double_fmt. replace (- (5/4)) with (IZR (-10) / 8) by lra. apply F. lia.
    + rewrite (Zfloor_IZR 2). rewrite Rminus_diag_eq by reflexivity. apply rnd64_0.
    + apply double_fmt. replace 2 with (IZR 16 / 8) by lra. apply F. lia.
    + rewrite (Zfloor_imp 2) by (cbn; lra). replace (19/8 - 2) with (IZR 3 / 8) by lra. rewrite rnd64_id by (apply F; lia). lra.
    + apply double_fmt. apply F. lia.
  - cbn. unfold cure1. cbn. f_equal. unfold Rmin. destruct (Rle_dec (-1) (1/4)); [|lra]. destruct (Rle_dec (1/2) (1/2)); [|lra]. destruct (Rle_dec 0 0); [|lra].
    destruct (Rltb_spec (-1) 0); [|lra]. destruct (Rltb_spec (1/2) 0); [lra|]. destruct (Rltb_spec 0 0); [lra|]. unfold rnd3, vadd. cbn.
    rewrite !Rplus_0_r. replace (-1 - -1) with 0 by ring.
    assert (H : rnd64 (1/2) = 1/2) by (replace (1/2) with (IZR 4 / 8) by lra; apply rnd64_id, F; lia).
    replace (-1 + - -1) with 0 by ring. replace (1/4 + - -1) with (IZR 10 / 8) by lra. rewrite H, rnd64_0, (rnd64_id (IZR 10 / 8)) by (apply F; lia).
    replace (5/4) with (10/8) by lra. reflexivity.
Qed.
