(* P_Float.v : property C63, comparisons in double precision *)
From Verif Require Import Base M_Numerical M_Float F_Numerical.
From Flocq Require Import Core BinarySingleNaN Relative.
From Coq Require Import Lra Lia.
Open Scope R_scope.

Notation value := (@B2R 53 1024).
Notation finite := (@is_finite 53 1024).
Definition fholds x c y eps rtol atol : Prop := compare_floats x c y eps rtol atol = Ok true.
Definition nan : double := B754_nan.
Definition infinity : double := B754_infinity false.
(* 0 <= e, also for +inf and -0; false for nan *)
Definition not_negative (e : double) : Prop := e = infinity \/ finite e = true /\ 0 <= value e.
Definition rnd (x : R) : R := round radix2 (SpecFloat.fexp 53 1024) (round_mode mode_NE) x.

Lemma rnd_mono x y : x <= y -> rnd x <= rnd y.
Proof. apply round_le; [apply fexp_correct; reflexivity|apply valid_rnd_N]. Qed.
Lemma rnd_value (y : double) : rnd (value y) = value y.
Proof. apply round_generic; [apply valid_rnd_N|apply generic_format_B2R]. Qed.
Lemma flt_finite x y : finite x = true -> finite y = true -> flt x y = true <-> value x < value y.
Proof.
  intros X Y. unfold flt. rewrite Bltb_correct by auto. unfold Rlt_bool. destruct (Rcompare_spec (value x) (value y)); split; intros; try reflexivity; try discriminate; lra.
Qed.
Lemma flt_minf x : flt x (B754_infinity true) = false.
Proof. destruct x as [[]|[]| |[] ? ? ?]; reflexivity. Qed.
Lemma flt_nan x : flt x nan = false.
Proof. destruct x as [[]|[]| |[] ? ? ?]; reflexivity. Qed.
Lemma nan_flt x : flt nan x = false.
Proof. destruct x as [[]|[]| |[] ? ? ?]; reflexivity. Qed.
(* finite difference: the rounded one, or -inf *)
Lemma fsub_finite y e : finite y = true -> finite e = true -> 0 <= value e ->
  finite (fsub y e) = true /\ value (fsub y e) = rnd (value y - value e) \/
  fsub y e = B754_infinity true /\ rnd (value y - value e) <= - bpow radix2 1024.
Proof.
  intros Y E P. unfold fsub. pose proof (@Bminus_correct 53 1024 prec_pos prec_small mode_NE y e Y E) as H.
  fold (rnd (value y - value e)) in H.
  destruct (Rlt_bool_spec (Rabs (rnd (value y - value e))) (bpow radix2 1024)) as [L|L].
  - left. tauto.
  - right. destruct H as [H SG]. pose proof (abs_B2R_lt_emax 53 1024 y) as LY.
    assert (M : rnd (value y - value e) <= value y) by (eapply Rle_trans; [apply rnd_mono with (y := value y); lra|right; apply rnd_value]).
    assert (EP : value e <> 0).
    { intros Z0. rewrite Z0, Rminus_0_r, rnd_value in L. lra. }
    assert (SE : Bsign e = false).
    { destruct e as [s|s| |s m ex B]; try discriminate; cbn in EP |- *; [congruence|]. destruct s; [|reflexivity]. exfalso.
      cbn in P. assert (N : @F2R radix2 {| Fnum := Z.neg m; Fexp := ex |} < 0) by (apply F2R_lt_0; reflexivity). lra. }
    rewrite SE in SG. cbn [negb] in SG. rewrite SG in H. cbn in H. split.
    + destruct (Bminus mode_NE y e) as [s|s| |s m ex B]; cbn in H; try discriminate. injection H as ->. reflexivity.
    + unfold Rabs in L, LY. destruct (Rcase_abs (rnd (value y - value e))); destruct (Rcase_abs (value y)); lra.
Qed.
Lemma minus_infinity y : fsub y infinity = nan \/ fsub y infinity = B754_infinity true.
Proof. destruct y as [[]|[]| |[] ? ? ?]; cbn; auto. Qed.
(* subtracting a tolerance never helps *)
Lemma flt_fsub x y e : not_negative e -> flt x (fsub y e) = true -> flt x y = true.
Proof.
  intros [->|(E & P)] H.
  - destruct (minus_infinity y) as [K|K]; rewrite K in H; [rewrite flt_nan in H|rewrite flt_minf in H]; discriminate.
  - destruct (finite y) eqn:Y.
    + destruct (fsub_finite y e Y E P) as [(F & V)|(K & _)]; [|rewrite K, flt_minf in H; discriminate].
      destruct (finite x) eqn:X.
      * apply flt_finite in H; auto. apply flt_finite; auto. rewrite V in H.
        assert (rnd (value y - value e) <= value y) by (eapply Rle_trans; [apply rnd_mono with (y := value y); lra|right; apply rnd_value]). lra.
      * destruct x as [s|[]| |s m ex B]; try discriminate.
        -- destruct y as [s|s| |[] m ex B]; try discriminate; reflexivity.
        -- exfalso. clear - H F. destruct (fsub y e) as [s|s| |[] m ex B]; discriminate.
    + destruct y as [s|[]| |s m ex B]; try discriminate.
      * assert (K : fsub (B754_infinity true) e = B754_infinity true) by (destruct e as [[]|[]| |[] ? ? ?]; try discriminate; reflexivity).
        rewrite K in H. exact H.
      * assert (K : fsub (B754_infinity false) e = B754_infinity false) by (destruct e as [[]|[]| |[] ? ? ?]; try discriminate; reflexivity).
        rewrite K in H. exact H.
      * assert (K : fsub B754_nan e = nan) by (destruct e as [[]|[]| |[] ? ? ?]; reflexivity). rewrite K, flt_nan in H. discriminate.
Qed.
Lemma flt_asym x y : flt x y = true -> flt y x = true -> False.
Proof.
  intros A B. destruct (finite x) eqn:X; [destruct (finite y) eqn:Y|].
  - apply flt_finite in A; auto. apply flt_finite in B; auto. lra.
  - destruct y as [s|[]| |s m ex BB]; try discriminate; destruct x as [[]|[]| |[] ? ? ?]; discriminate.
  - destruct x as [s|[]| |s m ex BB]; try discriminate; destruct y as [[]|[]| |[] ? ? ?]; discriminate.
Qed.
Lemma flt_pinf x : flt (B754_infinity false) x = false.
Proof. destruct x as [[]|[]| |[] ? ? ?]; reflexivity. Qed.
Lemma flt_trans x y z : flt x y = true -> flt y z = true -> flt x z = true.
Proof.
  intros A B. destruct (finite x) eqn:X; [destruct (finite y) eqn:Y; [destruct (finite z) eqn:Z0|]|].
  - apply flt_finite in A; auto. apply flt_finite in B; auto. apply flt_finite; auto. lra.
  - destruct z as [s|[]| |s m ex BB]; try discriminate; rewrite ?flt_minf, ?flt_nan in B; try discriminate.
    destruct x as [[]|[]| |[] ? ? ?]; try discriminate; reflexivity.
  - destruct y as [s|[]| |s m ex BB]; try discriminate; rewrite ?flt_minf, ?flt_nan, ?flt_pinf in *; discriminate.
  - destruct x as [s|[]| |s m ex BB]; try discriminate; rewrite ?nan_flt, ?flt_pinf in A; try discriminate.
    destruct z as [s|[]| |[] m ex BB]; rewrite ?flt_minf, ?flt_nan in B; try discriminate; reflexivity.
Qed.
Lemma fcompare_true c k x y eps rtol atol : parse_cmp c = Some k ->
  fholds x c y eps rtol atol <-> fcwt x k y (fresolve_eps eps rtol atol y) = true.
Proof. unfold fholds, compare_floats. intros ->. split; congruence. Qed.

(* exactly one of <, ==, > holds, also with infinities and nan *)
Definition exactly_one (A B C : Prop) : Prop := (A /\ ~ B /\ ~ C) \/ (~ A /\ B /\ ~ C) \/ (~ A /\ ~ B /\ C).
Theorem C63_trichotomy : forall x y eps rtol atol, not_negative (fresolve_eps eps rtol atol y) ->
  exactly_one (fholds x "<" y eps rtol atol) (fholds x "==" y eps rtol atol) (fholds x ">" y eps rtol atol).
Proof.
  intros x y eps rtol atol H. unfold exactly_one. rewrite (fcompare_true "<" CLt), (fcompare_true "==" CEq), (fcompare_true ">" CGt) by reflexivity.
  set (e := fresolve_eps eps rtol atol y) in *. cbn [fcwt].
  destruct (flt x (fsub y e)) eqn:A; destruct (flt y (fsub x e)) eqn:B; cbn [orb negb].
  - exfalso. apply (flt_asym x y); eapply flt_fsub; eauto.
  - left. repeat split; discriminate.
  - right; right. repeat split; discriminate.
  - right; left. repeat split; discriminate.
Qed.
Print Assumptions C63_trichotomy.
Theorem C63_complementary : forall x y eps rtol atol a b,
  In (a, b) [("<", ">="); (">", "<="); ("==", "!=")]%string ->
  exists v, compare_floats x a y eps rtol atol = Ok v /\ compare_floats x b y eps rtol atol = Ok (negb v).
Proof.
  intros x y eps rtol atol a b [H|[H|[H|[]]]]; injection H; intros; subst; unfold compare_floats; simpl; eexists; (split; [reflexivity|]);
    rewrite ?negb_involutive; reflexivity.
Qed.
Print Assumptions C63_complementary.
Theorem C63_order_laws : forall x y z e rtol atol, not_negative e ->
  fholds x "==" x (Some e) rtol atol /\
  (fholds x "==" y (Some e) rtol atol <-> fholds y "==" x (Some e) rtol atol) /\
  (fholds x "<" y (Some e) rtol atol <-> fholds y ">" x (Some e) rtol atol) /\
  (fholds x "<" y (Some e) rtol atol -> fholds y "<" z (Some e) rtol atol -> fholds x "<" z (Some e) rtol atol) /\
  ~ fholds x "<" x (Some e) rtol atol.
Proof.
  intros x y z e rtol atol H. rewrite !(fcompare_true "<" CLt), !(fcompare_true "==" CEq), (fcompare_true ">" CGt) by reflexivity. cbn [fresolve_eps fcwt].
  assert (N : flt x (fsub x e) = false).
  { destruct (flt x (fsub x e)) eqn:F; [|reflexivity]. exfalso. apply (flt_asym x x); eapply flt_fsub; eauto. }
  split; [rewrite N; reflexivity|]. split; [rewrite (orb_comm (flt x _)); tauto|]. split; [tauto|]. split; [|rewrite N; discriminate].
  intros A B. apply flt_fsub in A; auto. eapply flt_trans; eauto.
Qed.
Print Assumptions C63_order_laws.
(* compared with exact arithmetic: "<" is never reported wrongly, and missed only within half a unit in the last place *)
Theorem C63_sound : forall x y e rtol atol, finite x = true -> finite y = true -> finite e = true -> 0 <= value e ->
  (fholds x "<" y (Some e) rtol atol -> value y - value x > value e) /\
  (fholds x ">" y (Some e) rtol atol -> value x - value y > value e) /\
  (Rabs (value x - value y) <= value e -> fholds x "==" y (Some e) rtol atol).
Proof.
  assert (G : forall x y e, finite x = true -> finite y = true -> finite e = true -> 0 <= value e ->
    flt x (fsub y e) = true -> value y - value x > value e).
  { intros x y e X Y E P H. destruct (fsub_finite y e Y E P) as [(F & V)|(K & _)]; [|rewrite K, flt_minf in H; discriminate].
    apply flt_finite in H; auto. rewrite V in H. apply Rnot_le_gt. intros C.
    assert (rnd (value y - value e) <= value x) by (eapply Rle_trans; [apply rnd_mono with (y := value x); lra|right; apply rnd_value]). lra. }
  intros x y e rtol atol X Y E P. rewrite (fcompare_true "<" CLt), (fcompare_true "==" CEq), (fcompare_true ">" CGt) by reflexivity. cbn [fresolve_eps fcwt].
  split; [auto|]. split; [auto|]. intros A.
  destruct (flt x (fsub y e)) eqn:F1; [apply G in F1; auto; unfold Rabs in A; destruct (Rcase_abs (value x - value y)); lra|].
  destruct (flt y (fsub x e)) eqn:F2; [apply G in F2; auto; unfold Rabs in A; destruct (Rcase_abs (value x - value y)); lra|]. reflexivity.
Qed.
Print Assumptions C63_sound.
Lemma rnd_error x : Rabs (rnd x - x) <= Rabs x / 2 ^ 53 + bpow radix2 (-1075).
Proof.
  destruct (error_N_FLT radix2 (-1074) 53 eq_refl (fun x => negb (Z.even x)) x) as (d & eta & D & T & _ & V).
  unfold rnd. change (SpecFloat.fexp 53 1024) with (FLT_exp (-1074) 53). change (round_mode mode_NE) with (Znearest (fun x => negb (Z.even x))).
  rewrite V. replace (x * (1 + d) + eta - x) with (x * d + eta) by ring. eapply Rle_trans; [apply Rabs_triang|]. rewrite Rabs_mult.
  apply Rplus_le_compat.
  - unfold Rdiv. apply Rmult_le_compat_l; [apply Rabs_pos|]. eapply Rle_trans; [exact D|]. cbn -[Rinv pow]. right. cbn. lra.
  - eapply Rle_trans; [exact T|]. replace (-1074)%Z with (-1075 + 1)%Z by lia. rewrite bpow_plus. change (bpow radix2 1) with 2. lra.
Qed.
Theorem C63_complete : forall x y e rtol atol, finite x = true -> finite y = true -> finite e = true -> 0 <= value e ->
  let slack a := Rabs (a - value e) / 2 ^ 53 + bpow radix2 (-1075) in
  (value y - value x > value e + slack (value y) -> fholds x "<" y (Some e) rtol atol) /\
  (value x - value y > value e + slack (value x) -> fholds x ">" y (Some e) rtol atol) /\
  (fholds x "==" y (Some e) rtol atol -> Rabs (value x - value y) <= value e + Rmax (slack (value x)) (slack (value y))).
Proof.
  assert (G : forall x y e, finite x = true -> finite y = true -> finite e = true -> 0 <= value e ->
    value y - value x > value e + (Rabs (value y - value e) / 2 ^ 53 + bpow radix2 (-1075)) -> flt x (fsub y e) = true).
  { intros x y e X Y E P H. pose proof (rnd_error (value y - value e)) as D.
    assert (L : value x < rnd (value y - value e)).
    { unfold Rabs at 1 in D. destruct (Rcase_abs (rnd (value y - value e) - (value y - value e))); lra. }
    destruct (fsub_finite y e Y E P) as [(F & V)|(K & C)].
    - apply flt_finite; auto. rewrite V. exact L.
    - exfalso. pose proof (abs_B2R_lt_emax 53 1024 x) as LX. unfold Rabs in LX. destruct (Rcase_abs (value x)); lra. }
  intros x y e rtol atol X Y E P slack. rewrite (fcompare_true "<" CLt), (fcompare_true "==" CEq), (fcompare_true ">" CGt) by reflexivity. cbn [fresolve_eps fcwt].
  unfold slack. split; [auto|]. split; [auto|]. intros H.
  destruct (flt x (fsub y e)) eqn:F1; [discriminate|]. destruct (flt y (fsub x e)) eqn:F2; [discriminate|].
  assert (A1 : ~ value y - value x > value e + slack (value y)) by (intros C; apply G in C; auto; congruence).
  assert (A2 : ~ value x - value y > value e + slack (value x)) by (intros C; apply G in C; auto; congruence).
  fold (slack (value x)) (slack (value y)).
  pose proof (Rmax_l (slack (value x)) (slack (value y))). pose proof (Rmax_r (slack (value x)) (slack (value y))).
  apply Rabs_le. lra.
Qed.
Print Assumptions C63_complete.
(* nan is equal to every number *)
Theorem C63_nan : forall y eps rtol atol,
  fholds nan "==" y eps rtol atol /\ fholds y "==" nan eps rtol atol /\ fholds nan "<=" y eps rtol atol /\ fholds nan ">=" y eps rtol atol.
Proof.
  intros y eps rtol atol. rewrite !(fcompare_true "==" CEq), (fcompare_true "<=" CLe), (fcompare_true ">=" CGe) by reflexivity. cbn [fcwt].
  assert (K : forall e, fsub nan e = nan) by (intros [[]|[]| |[] ? ? ?]; reflexivity). rewrite !K, !nan_flt, !flt_nan. repeat split.
Qed.
Print Assumptions C63_nan.

(* the default tolerance is never negative *)
Lemma sign_value (x : double) : finite x = true -> 0 < value x -> Bsign x = false.
Proof.
  destruct x as [s|s| |s m ex B]; try discriminate; cbn; intros _ P; [lra|]. destruct s; [|reflexivity].
  assert (N : @F2R radix2 {| Fnum := Z.neg m; Fexp := ex |} < 0) by (apply F2R_lt_0; reflexivity). exfalso. exact (Rlt_asym _ _ P N).
Qed.
Lemma rnd_nonneg x : 0 <= x -> 0 <= rnd x.
Proof. intros H. replace 0 with (rnd 0) by (apply round_0, valid_rnd_N). apply rnd_mono; auto. Qed.
Lemma fmul_nonneg r y : finite r = true -> 0 < value r -> y <> nan -> not_negative (fmul r (fabs y)).
Proof.
  intros R0 P NY. pose proof (sign_value r R0 P) as SR. destruct (finite y) eqn:Y.
  - pose proof (@Bmult_correct 53 1024 prec_pos prec_small mode_NE r (fabs y)) as H.
    assert (VA : value (fabs y) = Rabs (value y)) by apply B2R_Babs. assert (FA : finite (fabs y) = true) by (unfold fabs; rewrite is_finite_Babs; auto).
    assert (SA : Bsign (fabs y) = false) by (unfold fabs; apply Bsign_Babs; destruct y; auto; discriminate).
    change (Bmult mode_NE r (fabs y)) with (fmul r (fabs y)) in H. fold (rnd (value r * value (fabs y))) in H.
    destruct (Rlt_bool (Rabs (rnd (value r * value (fabs y)))) (bpow radix2 1024)).
    + right. destruct H as (V & F & _). rewrite F, R0, FA. split; [auto|]. rewrite V. apply rnd_nonneg. rewrite VA. apply Rmult_le_pos; [left; exact P|apply Rabs_pos].
    + left. rewrite SR, SA in H. cbn in H. destruct (fmul r (fabs y)) as [s|s| |s m ex B]; cbn in H; try discriminate. injection H as ->. reflexivity.
  - destruct y as [s|s| |s m ex B]; try discriminate; [|contradiction].
    left. destruct r as [s0|s0| |s0 m0 ex0 B0]; try discriminate; [exfalso; cbn in P; apply (Rlt_irrefl 0); exact P|]. cbn in SR. subst s0. reflexivity.
Qed.
Lemma fadd_nonneg a p : finite a = true -> 0 < value a -> not_negative p -> not_negative (fadd a p).
Proof.
  intros A P [->|(F & NP)].
  - left. destruct a as [s0|s0| |s0 m0 ex0 B0]; try discriminate; reflexivity.
  - pose proof (@Bplus_correct 53 1024 prec_pos prec_small mode_NE a p A F) as H.
    change (Bplus mode_NE a p) with (fadd a p) in H. fold (rnd (value a + value p)) in H.
    destruct (Rlt_bool (Rabs (rnd (value a + value p))) (bpow radix2 1024)).
    + right. destruct H as (V & FF & _). split; [auto|]. rewrite V. apply rnd_nonneg. lra.
    + left. destruct H as [H _]. rewrite (sign_value a A P) in H. cbn in H. destruct (fadd a p) as [s|s| |s m ex B]; cbn in H; try discriminate. injection H as ->. reflexivity.
Qed.
Lemma frtol_pos : finite frtol = true /\ 0 < value frtol.
Proof. split; [reflexivity|]. apply F2R_gt_0. reflexivity. Qed.
Lemma fatol_pos : finite fatol = true /\ 0 < value fatol.
Proof. split; [reflexivity|]. apply F2R_gt_0. reflexivity. Qed.
Theorem C63_default_tolerance : forall x y,
  exactly_one (fholds x "<" y None frtol fatol) (fholds x "==" y None frtol fatol) (fholds x ">" y None frtol fatol).
Proof.
  intros x y. assert (D : y = nan \/ y <> nan) by (destruct y; auto; right; discriminate). destruct D as [->|D].
  - unfold exactly_one. rewrite (fcompare_true "<" CLt), (fcompare_true "==" CEq), (fcompare_true ">" CGt) by reflexivity. cbn [fcwt].
    assert (K : forall e, fsub nan e = nan) by (intros [[]|[]| |[] ? ? ?]; reflexivity). rewrite !K, !nan_flt, !flt_nan.
    right; left. repeat split; discriminate.
  - apply C63_trichotomy. cbn [fresolve_eps]. destruct frtol_pos, fatol_pos. apply fadd_nonneg; auto. apply fmul_nonneg; auto.
Qed.
Print Assumptions C63_default_tolerance.
(* with the default tolerances every number equals an infinity given as the second number *)
Theorem C63_infinity : forall x s, fholds x "==" (B754_infinity s) None frtol fatol.
Proof.
  intros x s. rewrite (fcompare_true "==" CEq) by reflexivity. cbn [fcwt].
  assert (E : fresolve_eps None frtol fatol (B754_infinity s) = infinity) by (destruct s; reflexivity). rewrite E.
  destruct (minus_infinity x) as [K|K]; destruct (minus_infinity (B754_infinity s)) as [K'|K']; rewrite K, K', ?flt_nan, ?flt_minf; reflexivity.
Qed.
Print Assumptions C63_infinity.
Definition one : double := @B754_finite 53 1024 false 4503599627370496 (-52) eq_refl.
Definition next_one : double := @B754_finite 53 1024 false 4503599627370497 (-52) eq_refl.
Definition zero : double := B754_zero false.
Example C63_nonvacuous : not_negative zero /\ not_negative infinity /\
  fholds one "<" next_one (Some zero) frtol fatol /\ fholds one "==" next_one None frtol fatol /\ fholds one ">" (B754_zero true) None frtol fatol /\
  fholds zero "==" (B754_zero true) (Some zero) frtol fatol.
Proof.
  split; [right; split; [reflexivity|cbn; lra]|]. split; [left; reflexivity|].
  repeat split; vm_compute; reflexivity.
Qed.
(* rounding: 1 + 2^-52 exceeds 1 by more than the largest double below 2^-52, and is still equal to 1 within it *)
Example C63_half_unit : let e : double := @B754_finite 53 1024 false 9007199254740991 (-105) eq_refl in
  value next_one - value one > value e /\ fholds next_one "==" one (Some e) frtol fatol.
Proof.
  cbv zeta. split; [|vm_compute; reflexivity]. cbn. unfold F2R. cbn. lra.
Qed.

(* any other condition is refused *)
Theorem C63_unknown_condition : forall x c y eps rtol atol,
  ~ In c ["<"; ">"; "<="; ">="; "=="; "!="]%string -> compare_floats x c y eps rtol atol = Err ValueError.
Proof.
  intros x c y eps rtol atol H. unfold compare_floats. destruct (parse_cmp c) as [k|] eqn:P; [|reflexivity].
  exfalso. apply H. revert P. unfold parse_cmp. 
  repeat match goal with |- context [String.eqb c ?s] => destruct (String.eqb_spec c s) as [->|]; [cbn; tauto|] end. discriminate.
Qed.
Print Assumptions C63_unknown_condition.

Lemma tol_value m e (z : Z) (E : (0 <= z)%Z) : e = (- z)%Z -> @F2R radix2 {| Fnum := Zpos m; Fexp := e |} = IZR (Zpos m) / IZR (2 ^ z).
Proof. intros ->. unfold F2R. cbn [Fnum Fexp]. rewrite bpow_opp. unfold Rdiv. f_equal. f_equal. rewrite <- IZR_Zpower by auto. reflexivity. Qed.
Lemma frtol_value : value frtol = IZR 5902958103587057 / IZR (2 ^ 69).
Proof. unfold frtol, B2R. cbn [cond_Zopp]. apply (tol_value _ _ 69); [lia|reflexivity]. Qed.
Lemma fatol_value : value fatol = IZR 6044629098073146 / IZR (2 ^ 79).
Proof. unfold fatol, B2R. cbn [cond_Zopp]. apply (tol_value _ _ 79); [lia|reflexivity]. Qed.
(* the default rtol and atol are 1e-5 and 1e-8 up to half a unit in the last place *)
Theorem C63_default_values : Rabs (value frtol - 1 / 100000) <= 1 / 2 ^ 70 /\ Rabs (value fatol - 1 / 100000000) <= 1 / 2 ^ 80.
Proof.
  rewrite frtol_value, fatol_value. cbn [Z.pow Z.pow_pos Pos.iter Z.mul Pos.mul]. split; apply Rabs_le; lra.
Qed.
Print Assumptions C63_default_values.

(* the default tolerance for a finite number is finite, and is 1e-8 + 1e-5 |y| up to a relative error of 2 to the power -50 *)
Theorem C63_default_width : forall y, finite y = true ->
  let e := fresolve_eps None frtol fatol y in let w := 1 / 100000000 + 1 / 100000 * Rabs (value y) in
  finite e = true /\ Rabs (value e - w) <= w / 2 ^ 50.
Proof.
  intros y Y. cbv zeta. cbn [fresolve_eps].
  destruct C63_default_values as [VR VA]. destruct frtol_pos as [FR PR]. destruct fatol_pos as [FA PA].
  set (r := value frtol) in *. set (a := value fatol) in *.
  assert (Ya : value (fabs y) = Rabs (value y)) by apply B2R_Babs.
  assert (FY : finite (fabs y) = true) by (unfold fabs; rewrite is_finite_Babs; auto).
  pose proof (abs_B2R_lt_emax 53 1024 y) as YB. pose proof (Rabs_pos (value y)) as Y0.
  set (t := Rabs (value y)) in *. set (B := bpow radix2 1024) in *.
  assert (B1 : 1 <= B) by (change 1 with (bpow radix2 0); apply bpow_le; lia).
  assert (TI : 0 < bpow radix2 (-1075) <= 1 / 2 ^ 100).
  { split; [apply bpow_gt_0|]. apply Rle_trans with (bpow radix2 (-100)); [apply bpow_le; lia|]. cbn. lra. }
  set (u := bpow radix2 (-1075)) in *.
  apply Rabs_le_inv in VR, VA.
  assert (RB : 0 <= r <= 1 / 50000) by lra.
  assert (P1 : 0 <= r * t <= 1 / 50000 * B) by (split; [apply Rmult_le_pos; lra|]; apply Rmult_le_compat; lra).
  assert (P2 : Rabs (r * t - 1 / 100000 * t) <= t / 2 ^ 70).
  { replace (r * t - 1 / 100000 * t) with ((r - 1 / 100000) * t) by ring. rewrite Rabs_mult, (Rabs_right t) by lra.
    replace (t / 2 ^ 70) with (1 / 2 ^ 70 * t) by field. apply Rmult_le_compat_r; auto. apply Rabs_le. lra. }
  apply Rabs_le_inv in P2.
  pose proof (@Bmult_correct 53 1024 prec_pos prec_small mode_NE frtol (fabs y)) as H.
  change (Bmult mode_NE frtol (fabs y)) with (fmul frtol (fabs y)) in H. fold r in H. rewrite Ya in H.
  fold (rnd (r * t)) in H. pose proof (rnd_error (r * t)) as E1. fold u in E1. rewrite (Rabs_right (r * t)) in E1 by lra.
  apply Rabs_le_inv in E1. pose proof (rnd_nonneg (r * t) ltac:(lra)) as N1.
  fold B in H. rewrite Rlt_bool_true in H by (rewrite Rabs_right by lra; lra).
  destruct H as (V1 & F1 & _). rewrite FR, FY in F1. change (true && true)%bool with true in F1.
  set (p := fmul frtol (fabs y)) in *. clearbody p.
  pose proof (@Bplus_correct 53 1024 prec_pos prec_small mode_NE fatol p FA F1) as H.
  change (Bplus mode_NE fatol p) with (fadd fatol p) in H. fold a in H. rewrite V1 in H.
  fold (rnd (a + rnd (r * t))) in H. pose proof (rnd_error (a + rnd (r * t))) as E2. fold u in E2.
  rewrite (Rabs_right (a + rnd (r * t))) in E2 by lra. apply Rabs_le_inv in E2.
  pose proof (rnd_nonneg (a + rnd (r * t)) ltac:(lra)) as N2.
  fold B in H. rewrite Rlt_bool_true in H by (rewrite Rabs_right by lra; lra).
  destruct H as (V2 & F2 & _). split; [exact F2|]. rewrite V2. apply Rabs_le. lra.
Qed.
Print Assumptions C63_default_width.
