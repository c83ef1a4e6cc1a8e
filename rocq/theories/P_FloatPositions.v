(* P_FloatPositions.v : property C64, positions of the primitive cell in double precision *)
From Verif Require Import Base M_Numerical M_Float.
From Flocq Require Import Core Relative.
From Coq Require Import Lra Lia.
Open Scope R_scope.

(* finite doubles, as real numbers *)
Definition is_double (y : R) : Prop := exists m e : Z, y = IZR m * bpow radix2 e /\ (Z.abs m < 2 ^ 53)%Z /\ (-1074 <= e)%Z.
Definition fmt := generic_format radix2 (FLT_exp (-1074) 53).
#[local] Instance prec53 : Prec_gt_0 53 := eq_refl.
#[local] Instance valid64 : Valid_exp (FLT_exp (-1074) 53) := FLT_exp_valid (-1074) 53.
Lemma double_fmt y : is_double y <-> fmt y.
Proof.
  split.
  - intros (m & e & -> & A & B). apply generic_format_FLT. exists (Float radix2 m e); auto.
  - intros H. apply FLT_format_generic in H; [|reflexivity]. destruct H as [[m e] E A B]. exists m, e. auto.
Qed.
Lemma rnd64_mono x y : x <= y -> rnd64 x <= rnd64 y.
Proof. apply round_le; auto with typeclass_instances. Qed.
Lemma rnd64_id x : fmt x -> rnd64 x = x.
Proof. apply round_generic; auto with typeclass_instances. Qed.
Lemma rnd64_le x y : fmt y -> x <= y -> rnd64 x <= y.
Proof. intros F H. rewrite <- (rnd64_id y F). apply rnd64_mono. exact H. Qed.
Lemma rnd64_ge x y : fmt y -> y <= x -> y <= rnd64 x.
Proof. intros F H. rewrite <- (rnd64_id y F). apply rnd64_mono. exact H. Qed.
Lemma rnd64_fmt x : fmt (rnd64 x).
Proof. apply generic_format_round; auto with typeclass_instances. Qed.
Lemma rnd64_error x : Rabs (rnd64 x - x) <= Rabs x / 2 ^ 53 + bpow radix2 (-1075).
Proof.
  destruct (error_N_FLT radix2 (-1074) 53 eq_refl (fun x => negb (Z.even x)) x) as (d & eta & D & T & _ & V).
  unfold rnd64. rewrite V. replace (x * (1 + d) + eta - x) with (x * d + eta) by ring. eapply Rle_trans; [apply Rabs_triang|]. rewrite Rabs_mult.
  apply Rplus_le_compat.
  - unfold Rdiv. apply Rmult_le_compat_l; [apply Rabs_pos|]. eapply Rle_trans; [exact D|]. right. cbn. lra.
  - eapply Rle_trans; [exact T|]. replace (-1074)%Z with (-1075 + 1)%Z by lia. rewrite bpow_plus. change (bpow radix2 1) with 2. lra.
Qed.
Lemma fmt0 : fmt 0. Proof. apply generic_format_0. Qed.
Lemma fmt1 : fmt 1. Proof. apply double_fmt. exists 1%Z, 0%Z. cbn. repeat split; try lia; try lra. Qed.
Lemma fmod1_range y : -1 < fmod1 y < 1 /\ (0 <= y -> 0 <= fmod1 y) /\ (y <= 0 -> fmod1 y <= 0).
Proof.
  unfold fmod1. destruct (Rle_lt_dec 0 y) as [P|P].
  - rewrite Ztrunc_floor by auto. pose proof (Zfloor_lb y). pose proof (Zfloor_ub y). repeat split; intros; try lra. assert (y = 0) by lra. subst. rewrite Zfloor_IZR. lra.
  - rewrite Ztrunc_ceil by lra. pose proof (Zceil_ub y). pose proof (Zceil_lb y). repeat split; intros; lra.
Qed.
Lemma frem_range y : 0 <= fremainder1 y <= 1.
Proof.
  unfold fremainder1. destruct (fmod1_range y) as (H & _). destruct (Rltb_spec (fmod1 y) 0); [|lra]. split.
  - apply rnd64_ge; [apply fmt0|lra].
  - apply rnd64_le; [apply fmt1|lra].
Qed.
Lemma frem_inside y : 0 <= y < 1 -> fremainder1 y = y.
Proof.
  intros H. unfold fremainder1, fmod1. rewrite Ztrunc_floor by lra. rewrite (Zfloor_imp 0) by (cbn; lra). rewrite Rminus_0_r. destruct (Rltb_spec y 0); lra.
Qed.
Lemma frem_one : fremainder1 1 = 0.
Proof. unfold fremainder1, fmod1. rewrite (Ztrunc_IZR 1). rewrite Rminus_diag_eq by reflexivity. destruct (Rltb_spec 0 0); lra. Qed.

(* doubles of size at least 2^k are multiples of 2^(k-52) *)
Lemma multiple y k : fmt y -> (-1022 <= k)%Z -> bpow radix2 k <= Rabs y -> exists m, y = IZR m * bpow radix2 (k - 52).
Proof.
  intros F K H. apply double_fmt in F. destruct F as (m & e & E & M & _).
  assert (G : (k - 52 <= e)%Z).
  { apply Z.nlt_ge. intros C. rewrite E, Rabs_mult, <- abs_IZR, (Rabs_right (bpow radix2 e)) in H by (apply Rle_ge, bpow_ge_0).
    assert (A : IZR (Z.abs m) < bpow radix2 53) by (change (bpow radix2 53) with (IZR (2 ^ 53)); apply IZR_lt; auto).
    assert (B : bpow radix2 e <= bpow radix2 (k - 53)) by (apply bpow_le; lia).
    assert (D : bpow radix2 k = bpow radix2 53 * bpow radix2 (k - 53)) by (rewrite <- bpow_plus; f_equal; lia).
    pose proof (bpow_gt_0 radix2 e). pose proof (bpow_gt_0 radix2 (k - 53)). assert (0 <= IZR (Z.abs m)) by (apply IZR_le; lia). nra. }
  exists (m * 2 ^ (e - (k - 52)))%Z. rewrite E, mult_IZR, Rmult_assoc. f_equal.
  rewrite (IZR_Zpower radix2) by lia. rewrite <- bpow_plus. f_equal. lia.
Qed.

(* the remainder taken twice is always in [0, 1) *)
Theorem C64_twice : forall y, 0 <= fremainder1 (fremainder1 y) < 1.
Proof.
  intros y. destruct (frem_range y) as (A & [B|B]); [rewrite frem_inside; lra|rewrite B, frem_one; lra].
Qed.
Print Assumptions C64_twice.
(* taken once it is not *)
Theorem C64_once_refuted : exists y, is_double y /\ fremainder1 y = 1.
Proof.
  exists (- bpow radix2 (-60)). split; [exists (-1)%Z, (-60)%Z; split; [lra|split; lia]|].
  assert (P60 : bpow radix2 (-60) = / 1152921504606846976) by reflexivity.
  unfold fremainder1, fmod1. rewrite Ztrunc_ceil by lra. rewrite (Zceil_imp 0) by (cbn [Z.sub Z.opp Z.add]; lra).
  rewrite Rminus_0_r. destruct (Rltb_spec (- bpow radix2 (-60)) 0) as [_|N]; [|lra].
  set (x := - bpow radix2 (-60) + 1). assert (F : fmt (rnd64 x)) by apply rnd64_fmt.
  assert (L : rnd64 x <= 1) by (apply rnd64_le; [apply fmt1|unfold x; lra]).
  assert (N : Rabs (rnd64 x - x) <= Rabs (1 - x)).
  { pose proof (round_N_pt radix2 (FLT_exp (-1074) 53) (fun x => negb (Z.even x)) x) as (_ & H). apply H. apply fmt1. }
  replace (1 - x) with (/ 1152921504606846976) in N by (unfold x; lra). rewrite (Rabs_right (/ _)) in N by lra.
  assert (LB : 1 - 2 * / 1152921504606846976 <= rnd64 x).
  { unfold Rabs in N. destruct (Rcase_abs (rnd64 x - x)); unfold x in *; lra. }
  destruct L as [L|L]; [|exact L]. exfalso.
  destruct (multiple (rnd64 x) (-1) F ltac:(lia)) as (m & E); [rewrite Rabs_right; change (bpow radix2 (-1)) with (/ 2); lra|].
  change (bpow radix2 (-1 - 52)) with (/ 9007199254740992) in E.
  assert (m < 9007199254740992)%Z by (apply lt_IZR; lra). assert (9007199254740991 < m)%Z by (apply lt_IZR; lra). lia.
Qed.
Print Assumptions C64_once_refuted.
(* for the positions, which are rounded to eight decimals first, once would do *)
Lemma once y : fmt y -> 0 <= y \/ y <= - bpow radix2 (-27) -> fremainder1 y < 1.
Proof.
  intros F [P|P]; unfold fremainder1; destruct (fmod1_range y) as (H & H1 & H2); destruct (Rltb_spec (fmod1 y) 0) as [L|L]; try lra.
  - assert (G : fmod1 y <= - bpow radix2 (-52)).
    { destruct (Rle_lt_dec 1 (Rabs y)) as [B|B].
      - destruct (multiple y 0 F ltac:(lia) B) as (m & E). change (0 - 52)%Z with (-52)%Z in E.
        assert (Z1 : fmod1 y = IZR (m - Ztrunc y * 2 ^ 52) * bpow radix2 (-52)).
        { unfold fmod1. rewrite E at 1. rewrite minus_IZR, mult_IZR. change (bpow radix2 (-52)) with (/ 4503599627370496). change (IZR (2 ^ 52)) with 4503599627370496. field. }
        set (n := (m - Ztrunc y * 2 ^ 52)%Z) in *. pose proof (bpow_gt_0 radix2 (-52)).
        assert (n < 0)%Z by (apply lt_IZR; nra). assert (IZR n <= -1) by (apply IZR_le; lia). nra.
      - assert (T0 : Ztrunc y = 0%Z).
        { rewrite Ztrunc_ceil by (pose proof (bpow_gt_0 radix2 (-27)); lra). apply Zceil_imp. cbn [Z.sub Z.opp Z.add].
          unfold Rabs in B. pose proof (bpow_gt_0 radix2 (-27)). destruct (Rcase_abs y); lra. }
        unfold fmod1. rewrite T0, Rminus_0_r. assert (bpow radix2 (-52) <= bpow radix2 (-27)) by (apply bpow_le; lia). lra. }
    apply Rle_lt_trans with (1 - bpow radix2 (-52)); [|pose proof (bpow_gt_0 radix2 (-52)); lra].
    apply rnd64_le; [|lra].
    apply double_fmt. exists 4503599627370495%Z, (-52)%Z. split; [|split; lia]. change (bpow radix2 (-52)) with (/ 4503599627370496). lra.
Qed.
Lemma round8_sign x : 0 <= fround8 x \/ fround8 x <= - bpow radix2 (-27).
Proof.
  unfold fround8. set (k := ZnearestE (rnd64 (x * 100000000))). assert (C : (0 <= k \/ k <= -1)%Z) by lia. destruct C as [C|C]; apply IZR_le in C.
  - left. apply rnd64_ge; [apply fmt0|lra].
  - right. apply rnd64_le; cycle 1.
    + change (bpow radix2 (-27)) with (/ 134217728). lra.
    + apply double_fmt. exists (-1)%Z, (-27)%Z. split; [lra|split; lia].
Qed.
Lemma fmod1_double y : is_double y -> is_double (fmod1 y).
Proof.
  intros (m & e & E & M & EM). destruct (Z.le_gt_cases 0 e) as [P|P].
  - exists 0%Z, 0%Z. split; [|split; [reflexivity|lia]]. unfold fmod1. rewrite E. rewrite <- IZR_Zpower, <- mult_IZR, Ztrunc_IZR by auto. cbn. lra.
  - exists (m - Ztrunc y * 2 ^ (- e))%Z, e.
    assert (E2 : fmod1 y = IZR (m - Ztrunc y * 2 ^ (- e)) * bpow radix2 e).
    { unfold fmod1. rewrite E at 1. rewrite minus_IZR, mult_IZR, (IZR_Zpower radix2) by lia.
      assert (D : bpow radix2 (- e) * bpow radix2 e = 1) by (rewrite <- bpow_plus; replace (- e + e)%Z with 0%Z by lia; reflexivity).
      rewrite Rmult_minus_distr_r, Rmult_assoc, D. ring. }
    split; [exact E2|]. split; [|exact EM].
    assert (A : Rabs (fmod1 y) <= Rabs y).
    { destruct (Rle_lt_dec 0 y) as [Q|Q].
      - destruct (fmod1_range y) as (H & H1 & _). specialize (H1 Q). rewrite !Rabs_right by lra. unfold fmod1. rewrite Ztrunc_floor by auto.
        assert (0 <= Zfloor y)%Z by (apply Zfloor_lub; auto). apply IZR_le in H0. lra.
      - destruct (fmod1_range y) as (H & _ & H1). specialize (H1 ltac:(lra)). rewrite !Rabs_left1 by lra. unfold fmod1. rewrite Ztrunc_ceil by lra.
        assert (Zceil y <= 0)%Z by (apply Zceil_glb; lra). apply IZR_le in H0. lra. }
    rewrite E2 in A. set (n := (m - Ztrunc y * 2 ^ (- e))%Z) in *. clearbody n. rewrite E, !Rabs_mult, <- !abs_IZR in A. apply Rmult_le_reg_r in A; [|rewrite Rabs_right; [apply bpow_gt_0|apply Rle_ge, bpow_ge_0]].
    apply le_IZR in A. lia.
Qed.
Theorem C64_positions : forall x, 0 <= fposition x < 1 /\ is_double (fposition x) /\ fremainder1 (fround8 x) = fposition x.
Proof.
  intros x. unfold fposition. split; [apply C64_twice|].
  assert (O : fremainder1 (fround8 x) < 1) by (apply once; [apply rnd64_fmt|apply round8_sign]).
  assert (E : fremainder1 (fremainder1 (fround8 x)) = fremainder1 (fround8 x)) by (apply frem_inside; split; [apply frem_range|auto]).
  split; [|auto]. rewrite E. apply double_fmt. unfold fremainder1. destruct (Rltb (fmod1 (fround8 x)) 0); [apply rnd64_fmt|].
  apply double_fmt, fmod1_double, double_fmt, rnd64_fmt.
Qed.
Print Assumptions C64_positions.
(* the position is the given one up to a lattice vector, the rounding to eight decimals and the precision of doubles *)
Lemma frem_error y : exists n : Z, Rabs (fremainder1 y - y - IZR n) <= / 2 ^ 53 + bpow radix2 (-1075).
Proof.
  unfold fremainder1. pose proof (fmod1_range y) as (H & _). pose proof (bpow_gt_0 radix2 (-1075)). assert (0 < / 2 ^ 53) by (apply Rinv_0_lt_compat, pow_lt; lra).
  destruct (Rltb_spec (fmod1 y) 0) as [L|L].
  - exists (1 - Ztrunc y)%Z. pose proof (rnd64_error (fmod1 y + 1)) as E. rewrite (Rabs_right (fmod1 y + 1)) in E by lra.
    rewrite minus_IZR. replace (rnd64 (fmod1 y + 1) - y - (1 - IZR (Ztrunc y))) with (rnd64 (fmod1 y + 1) - (fmod1 y + 1)) by (unfold fmod1; ring).
    eapply Rle_trans; [exact E|]. apply Rplus_le_compat_r. unfold Rdiv. rewrite <- (Rmult_1_l (/ 2 ^ 53)) at 2. apply Rmult_le_compat_r; lra.
  - exists (- Ztrunc y)%Z. rewrite opp_IZR. unfold fmod1. replace (y - IZR (Ztrunc y) - y - - IZR (Ztrunc y)) with 0 by ring. rewrite Rabs_R0. lra.
Qed.
Theorem C64_accuracy : forall x, exists n : Z, Rabs (fposition x - x - IZR n) <= / 10 ^ 8 / 2 + (Rabs x + 1) / 2 ^ 51.
Proof.
  intros x. destruct (C64_positions x) as (_ & _ & <-). destruct (frem_error (fround8 x)) as (n & N). exists n.
  assert (T : bpow radix2 (-1075) <= / 2 ^ 70).
  { apply Rle_trans with (bpow radix2 (-70)); [apply bpow_le; lia|]. right. cbn. lra. }
  pose proof (rnd64_error (x * 100000000)) as E1. rewrite Rabs_mult, (Rabs_right 100000000) in E1 by lra.
  set (a := rnd64 (x * 100000000)) in *. pose proof (Znearest_half (fun t => negb (Z.even t)) a) as E2.
  set (k := ZnearestE a) in *. fold k in E2. pose proof (rnd64_error (IZR k / 100000000)) as E3. fold a k in N.
  change (fround8 x) with (rnd64 (IZR k / 100000000)) in N |- *. set (y := rnd64 (IZR k / 100000000)) in *.
  assert (E4 : Rabs (IZR k / 100000000) <= (Rabs x * 100000000 + (Rabs x * 100000000 / 2 ^ 53 + bpow radix2 (-1075)) + / 2) / 100000000).
  { unfold Rdiv at 1. rewrite Rabs_mult, (Rabs_right (/ 100000000)) by lra. unfold Rdiv. apply Rmult_le_compat_r; [lra|].
    replace (IZR k) with (x * 100000000 + (a - x * 100000000) + (IZR k - a)) by ring.
    eapply Rle_trans; [apply Rabs_triang|]. apply Rplus_le_compat; [|rewrite Rabs_minus_sym; exact E2].
    eapply Rle_trans; [apply Rabs_triang|]. rewrite Rabs_mult, (Rabs_right 100000000) by lra. apply Rplus_le_compat; [lra|exact E1]. }
  assert (Q : Rabs (IZR k / 100000000 - x) <= (Rabs x * 100000000 / 2 ^ 53 + bpow radix2 (-1075) + / 2) / 100000000).
  { replace (IZR k / 100000000 - x) with (((a - x * 100000000) + (IZR k - a)) / 100000000) by field.
    unfold Rdiv at 1. rewrite Rabs_mult, (Rabs_right (/ 100000000)) by lra. unfold Rdiv. apply Rmult_le_compat_r; [lra|].
    eapply Rle_trans; [apply Rabs_triang|]. apply Rplus_le_compat; [exact E1|rewrite Rabs_minus_sym; exact E2]. }
  pose proof (Rabs_pos x) as PX. set (u := Rabs x) in *. set (t := bpow radix2 (-1075)) in *.
  assert (T0 : 0 < t) by apply bpow_gt_0.
  replace (fremainder1 y - x - IZR n) with ((fremainder1 y - y - IZR n) + ((y - IZR k / 100000000) + (IZR k / 100000000 - x))) by ring.
  eapply Rle_trans; [apply Rabs_triang|]. eapply Rle_trans; [apply Rplus_le_compat_l, Rabs_triang|].
  assert (E3' : Rabs (y - IZR k / 100000000) <= ((u * 100000000 + (u * 100000000 / 2 ^ 53 + t) + / 2) / 100000000) / 2 ^ 53 + t).
  { eapply Rle_trans; [exact E3|]. apply Rplus_le_compat_r. unfold Rdiv at 1 3. apply Rmult_le_compat_r; [left; apply Rinv_0_lt_compat, pow_lt; lra|exact E4]. }
  clear - N Q E3' T T0 PX. lra.
Qed.
Print Assumptions C64_accuracy.
Lemma fmt_half z : (-2 ^ 52 < z < 2 ^ 52)%Z -> fmt (IZR z / 2).
Proof. intros H. apply double_fmt. exists z, (-1)%Z. split; [cbn; lra|split; lia]. Qed.
Example C64_nonvacuous : is_double (- (1/2)) /\ fposition (- (1/2)) = 1/2 /\ fposition (7/2) = 1/2.
Proof.
  assert (N : forall z : Z, ZnearestE (IZR z) = z).
  { intros z. unfold Znearest. rewrite Zfloor_IZR, Zceil_IZR, Rminus_diag_eq by reflexivity. destruct (Rcompare_spec 0 (/ 2)); try lra; reflexivity. }
  assert (F : forall z, (-1000000000 < z < 1000000000)%Z -> fround8 (IZR z / 2) = IZR z / 2 \/ (z < -100 \/ 100 < z)%Z).
  { intros z Hz. destruct (Z_lt_le_dec z (-100)) as [|A]; [auto|]. destruct (Z_lt_le_dec 100 z) as [|B]; [auto|]. left. unfold fround8.
    replace (IZR z / 2 * 100000000) with (IZR (z * 100000000) / 2) by (rewrite mult_IZR; field). rewrite (rnd64_id (IZR (z * 100000000) / 2)) by (apply fmt_half; lia).
    replace (IZR (z * 100000000) / 2) with (IZR (z * 50000000)) by (rewrite !mult_IZR; field). rewrite N.
    replace (IZR (z * 50000000) / 100000000) with (IZR z / 2) by (rewrite mult_IZR; field). apply rnd64_id, fmt_half. lia. }
  split; [exists (-1)%Z, (-1)%Z; split; [cbn; lra|split; lia]|]. split.
  - unfold fposition. replace (- (1/2)) with (IZR (-1) / 2) by lra. destruct (F (-1)%Z ltac:(lia)) as [->|C]; [|lia].
    assert (E : fremainder1 (IZR (-1) / 2) = 1/2).
    { unfold fremainder1, fmod1. rewrite Ztrunc_ceil by lra. rewrite (Zceil_imp 0) by (cbn [Z.sub Z.opp Z.add]; lra).
      destruct (Rltb_spec (IZR (-1) / 2 - 0) 0); [|lra]. replace (IZR (-1) / 2 - 0 + 1) with (IZR 1 / 2) by lra. apply rnd64_id, fmt_half. lia. }
    rewrite E. apply frem_inside. lra.
  - unfold fposition. replace (7/2) with (IZR 7 / 2) by lra. destruct (F 7%Z ltac:(lia)) as [->|C]; [|lia].
    assert (E : fremainder1 (IZR 7 / 2) = 1/2).
    { unfold fremainder1, fmod1. rewrite Ztrunc_floor by lra. rewrite (Zfloor_imp 3) by (change (3 + 1)%Z with 4%Z; lra).
      destruct (Rltb_spec (IZR 7 / 2 - 3) 0); lra. }
    rewrite E. apply frem_inside. lra.
Qed.
