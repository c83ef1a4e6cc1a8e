(* F_Angles.v : one pass of the LePage model over exact axes, evaluated in integers *)
From Verif Require Import Base M_Numerical M_Geometry M_Cell M_Niggli M_Voronoi F_Voronoi F_Geometry M_Lepage F_Lepage F_LepageEx F_Bravais.
Open Scope R_scope.

(* ---------------- the list of axes ---------------- *)
Definition exact_axis (cell : mat) (u : zvec) : axis :=
  Axis u (vscale (/ norm (vmat (ofZv u) cell)) (vmat (ofZv u) cell)) 0.

Lemma halve_exact cell u : halve (exact_axis cell u) = exact_axis cell (zhalve u).
Proof.
  unfold halve, zhalve, exact_axis. cbn [ax_U ax_t ax_delta]. destruct (only_0_2 u) eqn:E; [|reflexivity].
  destruct (only_0_2_spec u E) as (w & E1 & E2). rewrite E2. f_equal. rewrite E1.
  assert (X : vmat (ofZv (zscale 2 w)) cell = vscale 2 (vmat (ofZv w) cell)).
  { rewrite <- vmat_scale. f_equal. destruct w. unfold ofZv, zscale, vscale; cbn [vx vy vz Base.zx Base.zy Base.zz]. rewrite !mult_IZR. reflexivity. }
  rewrite X, norm_scale, Rabs_right by lra. set (v := vmat _ _). destruct (Req_dec (norm v) 0) as [Z|Z].
  - rewrite Z, Rmult_0_r, Rinv_0. apply scale_zero.
  - apply scale_half; auto.
Qed.
Lemma dedup_exact cell l : dedup (map (exact_axis cell) l) = map (exact_axis cell) (zdedup l).
Proof.
  induction l as [|a l IH]; cbn; [reflexivity|].
  assert (X : existsb (fun b => related a (ax_U b)) (map (exact_axis cell) l) = existsb (related a) l).
  { clear. induction l; cbn; auto. rewrite IHl. reflexivity. }
  rewrite X, IH. destruct (existsb (related a) l); [reflexivity|]. cbn. rewrite <- halve_exact. reflexivity.
Qed.
(* every candidate pair is exactly aligned (par) or at least limit away *)
Definition isolated (cell r : mat) (limit : R) (par : zvec * zvec -> bool) : Prop :=
  forall U h, In U (miller 2) -> In h (miller 2) -> zeven (U, h) = true ->
    if par (U, h) then axis_delta cell r U h = 0 else limit <= axis_delta cell r U h.
Definition exact_us (par : zvec * zvec -> bool) : list zvec := map fst (filter (fun p => zeven p && par p) pairs22).
Lemma axes_isolated cell r limit par : get_reciprocal cell = Ok r -> 0 < limit -> isolated cell r limit par ->
  lepage_axes cell limit = Ok (map (exact_axis cell) (zdedup (exact_us par))).
Proof.
  intros R L I. unfold lepage_axes. rewrite R. cbn [bind]. rewrite candidates_ok by (apply reciprocal_dual; auto). cbn [bind].
  assert (E : flat_map (cand cell r limit) pairs22 = map (exact_axis cell) (exact_us par)).
  { unfold exact_us. assert (P : forall p, In p pairs22 -> In (fst p) (miller 2) /\ In (snd p) (miller 2)).
    { intros [U h] H. unfold pairs22 in H. apply in_flat_map in H. destruct H as (V & HV & H). apply in_map_iff in H. destruct H as (k & K & Hk). injection K as <- <-. auto. }
    revert P. generalize pairs22. induction l as [|[U h] l IH]; intros P; [reflexivity|]. cbn [flat_map filter].
    rewrite IH by (intros; apply P; cbn; auto). rewrite cand_eq; cbn [fst snd]. destruct (P (U, h) (or_introl eq_refl)) as (PU & Ph). cbn [fst snd] in *.
    change ((Z.abs (zdot U h) =? 2)%Z) with (zeven (U, h)). destruct (zeven (U, h)) eqn:E; cbn [andb]; [|reflexivity].
    specialize (I U h PU Ph E). destruct (par (U, h)).
    - rewrite I. destruct (Rltb_spec 0 limit); [|lra]. cbn [map app fst]. f_equal. unfold ax, exact_axis. rewrite I. reflexivity.
    - destruct (Rltb_spec (axis_delta cell r U h) limit); [lra|reflexivity]. }
  rewrite E, sort_by_id, dedup_exact; [reflexivity|].
  generalize (exact_us par). induction l; cbn; constructor; auto. intros y Hy. apply in_map_iff in Hy. destruct Hy as (u & <- & _). cbn. lra.
Qed.

(* ---------------- angles between exact axes ---------------- *)
Definition degrees (k : Z) : Z := match k with 0 => 90 | 1 => 60 | 2 => 45 | 3 => 30 | 4 => 0 | _ => -1 end%Z.
Lemma acos_sqrt k : (0 <= k <= 4)%Z -> acos (sqrt (IZR k / 4)) * TODEGREES = IZR (degrees k).
Proof.
  intros K. pose proof PI_RGT_0 as P0. unfold TODEGREES.
  assert (S4 : forall x, 0 <= x -> sqrt (x / 4) = sqrt x / 2).
  { intros x X. replace 4 with (2 * 2) by ring. rewrite sqrt_div_alt by lra. rewrite sqrt_square by lra. reflexivity. }
  assert (C : forall x, 0 <= x <= PI -> acos (cos x) * (180 / PI) = x * (180 / PI)) by (intros; rewrite acos_cos; auto).
  rewrite S4 by (apply IZR_le; lia).
  assert (KK : (k = 0 \/ k = 1 \/ k = 2 \/ k = 3 \/ k = 4)%Z) by lia.
  destruct KK as [KK|[KK|[KK|[KK|KK]]]]; subst k; cbn [degrees].
  - rewrite sqrt_0. replace (0 / 2) with (cos (PI / 2)) by (rewrite cos_PI2; lra). rewrite C by lra. field. lra.
  - rewrite sqrt_1. replace (1 / 2) with (cos (PI / 3)) by (rewrite cos_PI3; lra). rewrite C by lra. field. lra.
  - replace (sqrt 2 / 2) with (cos (PI / 4)). rewrite C by lra. field; lra.
    rewrite cos_PI4. pose proof (sqrt_lt_R0 2 ltac:(lra)). pose proof (sqrt_sqrt 2 ltac:(lra)). apply (Rmult_eq_reg_r (sqrt 2)); [|lra]. field_simplify; [|lra]. rewrite pow2_sqrt by lra. field.
  - replace (sqrt 3 / 2) with (cos (PI / 6)) by (rewrite cos_PI6; lra). rewrite C by lra. field. lra.
  - replace 4 with (2 * 2) at 1 by ring. rewrite sqrt_square by lra. replace (2 / 2) with (cos 0) by (rewrite cos_0; lra). rewrite C by lra. field. lra.
Qed.
Lemma angle_exact cell u v k : (0 <= k <= 4)%Z -> vmat (ofZv u) cell <> V3 0 0 0 -> vmat (ofZv v) cell <> V3 0 0 0 ->
  let x := dot (vmat (ofZv u) (metric cell)) (ofZv v) in
  4 * (x * x) = IZR k * (dot (vmat (ofZv u) (metric cell)) (ofZv u) * dot (vmat (ofZv v) (metric cell)) (ofZv v)) ->
  axes_angle (exact_axis cell u) (exact_axis cell v) = IZR (degrees k).
Proof.
  intros K NU NV x E. unfold x in E. clear x. rewrite <- !dot_metric in E. set (a := vmat (ofZv u) cell) in *. set (b := vmat (ofZv v) cell) in *.
  assert (Q : forall w, w <> V3 0 0 0 -> 0 < dot w w).
  { intros w W. destruct (Rle_lt_or_eq_dec 0 (dot w w)) as [Z|Z]; auto; [destruct w; vunfold; nra|]. exfalso. apply W, norm_0. unfold norm. rewrite <- Z. apply sqrt_0. }
  pose proof (Q a NU) as QA. pose proof (Q b NV) as QB. unfold axes_angle, exact_axis; cbn [ax_t]. fold a b. rewrite dot_scale_l, dot_scale_r.
  unfold norm. set (na := sqrt (dot a a)). set (nb := sqrt (dot b b)).
  assert (NA : na * na = dot a a) by (apply sqrt_sqrt; lra). assert (NB : nb * nb = dot b b) by (apply sqrt_sqrt; lra).
  assert (PA : 0 < na) by (apply sqrt_lt_R0; auto). assert (PB : 0 < nb) by (apply sqrt_lt_R0; auto).
  set (y := / na * (/ nb * dot a b)).
  assert (Y : y * y = IZR k / 4).
  { unfold y. replace (/ na * (/ nb * dot a b) * (/ na * (/ nb * dot a b))) with (4 * (dot a b * dot a b) / (4 * (na * na) * (nb * nb))) by (field; lra).
    rewrite E, NA, NB. field. lra. }
  assert (K4 : IZR k / 4 <= 1) by (destruct K as (_ & K); apply IZR_le in K; lra).
  assert (YB : -1 <= y <= 1) by (split; nra).
  unfold clip. rewrite (Rmax_left y (-1)) by lra. rewrite (Rmin_left y 1) by lra.
  rewrite <- sqrt_Rsqr_abs. unfold Rsqr. rewrite Y. apply acos_sqrt. exact K.
Qed.

(* the same from the linear forms *)
Definition quad_zero (k : Z) (xyz : list (Z * (Z * Z))) : bool :=
  forallb (fun q => let '((x1, (y1, z1)), (x2, (y2, z2))) := q in (8 * x1 * x2 =? k * (y1 * z2 + y2 * z1))%Z) (list_prod xyz xyz).
Lemma quad_value k : forall ps x y z, length x = length y -> length y = length z ->
  quad_zero k (combine x (combine y z)) = true -> 4 * (comb ps x * comb ps x) = IZR k * (comb ps y * comb ps z).
Proof.
  intros ps x y z L1 L2 H. unfold quad_zero in H. rewrite forallb_forall in H.
  assert (I : forall ps x y z x1 y1 z1, length x = length y -> length y = length z ->
    (forall a b c, In (a, (b, c)) (combine x (combine y z)) -> (8 * x1 * a = k * (y1 * c + b * z1))%Z) ->
    8 * IZR x1 * comb ps x = IZR k * (IZR y1 * comb ps z + comb ps y * IZR z1)).
  { clear. induction ps as [|p ps IH]; intros [|a x] [|b y] [|c z] x1 y1 z1 L1 L2 H; cbn in *; try discriminate; try ring.
    assert (E : (8 * x1 * a = k * (y1 * c + b * z1))%Z) by (apply H; auto).
    apply (f_equal IZR) in E. rewrite !mult_IZR, plus_IZR, !mult_IZR in E.
    assert (F : 8 * IZR x1 * comb ps x = IZR k * (IZR y1 * comb ps z + comb ps y * IZR z1)) by (apply IH; auto).
    transitivity (p * (8 * IZR x1 * IZR a) + 8 * IZR x1 * comb ps x); [ring|]. rewrite E, F. ring. }
  assert (O : forall ps' x' y' z', length x' = length y' -> length y' = length z' ->
    (forall a b c, In (a, (b, c)) (combine x' (combine y' z')) -> In (a, (b, c)) (combine x (combine y z))) ->
    8 * (comb ps' x' * comb ps x) = IZR k * (comb ps' y' * comb ps z + comb ps y * comb ps' z')).
  { induction ps' as [|p ps' IH]; intros [|a x'] [|b y'] [|c z'] M1 M2 S; cbn in *; try discriminate; try ring.
    assert (E : 8 * IZR a * comb ps x = IZR k * (IZR b * comb ps z + comb ps y * IZR c)).
    { apply I; auto. intros a' b' c' J. specialize (H ((a, (b, c)), (a', (b', c')))). cbn in H. apply Z.eqb_eq. apply H. apply in_prod; auto. }
    assert (F : 8 * (comb ps' x' * comb ps x) = IZR k * (comb ps' y' * comb ps z + comb ps y * comb ps' z')) by (apply IH; auto).
    transitivity (p * (8 * IZR a * comb ps x) + 8 * (comb ps' x' * comb ps x)); [ring|]. rewrite E, F. ring. }
  specialize (O ps x y z L1 L2 (fun _ _ _ J => J)). lra.
Qed.
Definition zangle_k (gs : list zmat) (u v : zvec) : option Z :=
  find (fun k => quad_zero k (combine (map (zform u v) gs) (combine (map (zform u u) gs) (map (zform v v) gs)))) [0; 1; 2; 3; 4]%Z.
Definition zangle gs u v : Z := match zangle_k gs u v with Some k => degrees k | None => -1 end.
Definition known_angles gs us : bool :=
  forallb (fun u => negb (zvec_eqb u (Zv 0 0 0)) && forallb (fun v => match zangle_k gs u v with Some _ => true | None => false end) us) us.
Lemma image_nonzero cell u : det cell <> 0 -> u <> Zv 0 0 0 -> vmat (ofZv u) cell <> V3 0 0 0.
Proof.
  intros D N H. apply N. apply (f_equal (fun w => vmat w (minv_total cell))) in H. rewrite vmat_mmul, minv_r, vmat_id in H by auto.
  destruct u as [a b c]. unfold ofZv in H; cbn [Base.zx Base.zy Base.zz] in H.
  assert (Z : vmat (V3 0 0 0) (minv_total cell) = V3 0 0 0) by (generalize (minv_total cell); clear; vring). rewrite Z in H.
  injection H as H1 H2 H3. apply eq_IZR in H1, H2, H3. subst. reflexivity.
Qed.
Lemma zangle_sound cell ps gs u v : metric cell = lin ps gs -> vmat (ofZv u) cell <> V3 0 0 0 -> vmat (ofZv v) cell <> V3 0 0 0 ->
  zangle_k gs u v <> None -> axes_angle (exact_axis cell u) (exact_axis cell v) = IZR (zangle gs u v).
Proof.
  intros M NU NV A. unfold zangle. destruct (zangle_k gs u v) as [k|] eqn:K; [|congruence]. unfold zangle_k in K. apply find_some in K. destruct K as (I & Q).
  apply angle_exact; auto.
  - cbn in I. lia.
  - cbv zeta. rewrite M, !lin_form. apply quad_value; rewrite ?map_length; auto.
Qed.
Definition zangles (gs : list zmat) (us : list zvec) : list (list Z) :=
  let ia := combine (seq 0 (length us)) us in
  map (fun p => map (fun q =>
    if Nat.eqb (fst p) (fst q) then (zangle gs (snd p) (snd q) + zangle gs (snd p) (snd q))%Z
    else if Nat.ltb (fst p) (fst q) then zangle gs (snd p) (snd q) else zangle gs (snd q) (snd p)) ia) ia.
Lemma combine_map_r {A B C} (f : B -> C) : forall (l : list A) m, combine l (map f m) = map (fun p => (fst p, f (snd p))) (combine l m).
Proof. induction l as [|a l IH]; intros [|b m]; cbn; auto. rewrite IH. reflexivity. Qed.
Lemma angles_exact cell ps gs us : metric cell = lin ps gs -> det cell <> 0 -> known_angles gs us = true ->
  angles_of (map (exact_axis cell) us) = map (map IZR) (zangles gs us).
Proof.
  intros M D K. unfold known_angles in K. rewrite forallb_forall in K.
  assert (A : forall u v, In u us -> In v us -> axes_angle (exact_axis cell u) (exact_axis cell v) = IZR (zangle gs u v)).
  { intros u v U V. pose proof (K u U) as Ku. pose proof (K v V) as Kv. rewrite andb_true_iff, forallb_forall in Ku, Kv. destruct Ku as (Nu & Au), Kv as (Nv & _).
    assert (Z : forall w, negb (zvec_eqb w (Zv 0 0 0)) = true -> w <> Zv 0 0 0).
    { intros w W E. apply negb_true_iff in W. rewrite (proj2 (zvec_eqb_true _ _) E) in W. discriminate. }
    apply zangle_sound with ps; auto using image_nonzero. specialize (Au v V). destruct (zangle_k gs u v); [discriminate|discriminate Au]. }
  unfold angles_of, zangles. rewrite map_length. cbv zeta. rewrite combine_map_r. set (ia := combine (seq 0 (length us)) us).
  assert (S : forall p, In p ia -> In (snd p) us) by (intros [i u] H; apply in_combine_r in H; exact H).
  rewrite !map_map. apply map_ext_in. intros p Hp. rewrite !map_map. apply map_ext_in. intros q Hq. cbn [fst snd].
  rewrite !A by auto. destruct (Nat.eqb (fst p) (fst q)); [rewrite plus_IZR; reflexivity|]. destruct (Nat.ltb (fst p) (fst q)); reflexivity.
Qed.
