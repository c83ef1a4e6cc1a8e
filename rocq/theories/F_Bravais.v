(* F_Bravais.v : exact symmetry axes found by the LePage model, from the metric of the cell *)
From Verif Require Import Base M_Numerical M_Geometry M_Cell M_Niggli M_Voronoi F_Voronoi F_Geometry M_Lepage F_Lepage F_LepageEx.
From Coq Require Import Sorting.Permutation.
Open Scope R_scope.

Definition metric (m : mat) : mat := mmul m (tr m).
Lemma dot_metric cell u v : dot (vmat u cell) (vmat v cell) = dot (vmat u (metric cell)) v.
Proof. unfold metric. vring. Qed.

(* ---------------- exact axes ---------------- *)
Definition twofold (G : mat) (U h : zvec) : Prop := exists k, vmat (ofZv U) G = vscale k (ofZv h).

Lemma dual_other cell r : mmul r (tr cell) = mscale (2 * PI) mid -> mmul (tr cell) r = mscale (2 * PI) mid.
Proof.
  intros H. pose proof PI_RGT_0 as P0.
  assert (D : det (tr cell) <> 0).
  { intros Z. apply (f_equal det) in H. rewrite det_mmul, Z, Rmult_0_r in H.
    replace (det (mscale (2 * PI) mid)) with (2 * PI * (2 * PI) * (2 * PI)) in H by (generalize (2 * PI); vring).
    set (c := 2 * PI) in *. assert (C : 0 < c) by (unfold c; lra). clearbody c. assert (0 < c * c) by nra. nra. }
  set (n := minv_total (tr cell)).
  pose proof (minv_l (tr cell) D) as L. pose proof (minv_r (tr cell) D) as RR. fold n in L, RR.
  assert (E : r = mscale (2 * PI) n).
  { rewrite <- (mmul_id_r r), <- RR, <- mmul_assoc, H. generalize (2 * PI). generalize n. clear. vring. }
  rewrite E. replace (mmul (tr cell) (mscale (2 * PI) n)) with (mscale (2 * PI) (mmul (tr cell) n))
    by (generalize (2 * PI); generalize n; generalize (tr cell); clear; vring).
  rewrite RR. reflexivity.
Qed.

Lemma vscale_scale a b v : vscale a (vscale b v) = vscale (a * b) v.
Proof. vring. Qed.
Lemma vscale_1 v : vscale 1 v = v.
Proof. vring. Qed.
Lemma cross_0_parallel t s : cross t s = V3 0 0 0 -> dot t s <> 0 -> exists k, t = vscale k s.
Proof.
  intros C D. assert (S : dot s s <> 0).
  { intros Z. apply D. destruct t as [a b c], s as [x y z]. revert Z. vunfold. intros Z.
    assert (x = 0) by nra. assert (y = 0) by nra. assert (z = 0) by nra. subst. ring. }
  exists (dot t s / dot s s).
  assert (E : vscale (dot s s) t = vscale (dot t s) s).
  { destruct t as [a b c], s as [x y z]. revert C. vunfold. intros C. injection C as C1 C2 C3. vcomp; apply Rminus_diag_uniq.
    - transitivity (y * (a * y - b * x) - z * (c * x - a * z)); [ring|]. rewrite C2, C3. ring.
    - transitivity (z * (b * z - c * y) - x * (a * y - b * x)); [ring|]. rewrite C1, C3. ring.
    - transitivity (x * (c * x - a * z) - y * (b * z - c * y)); [ring|]. rewrite C1, C2. ring. }
  transitivity (vscale (/ dot s s) (vscale (dot s s) t)).
  - rewrite vscale_scale, Rinv_l, vscale_1 by auto. reflexivity.
  - rewrite E, vscale_scale. unfold Rdiv. rewrite (Rmult_comm (dot t s)). reflexivity.
Qed.
Lemma norm_0 v : norm v = 0 <-> v = V3 0 0 0.
Proof.
  unfold norm. split.
  - intros H. apply sqrt_eq_0 in H; [|destruct v; vunfold; nra]. destruct v as [a b c]. revert H. vunfold. intros H.
    assert (a = 0) by nra. assert (b = 0) by nra. assert (c = 0) by nra. subst. reflexivity.
  - intros ->. vunfold. replace (0 * 0 + 0 * 0 + 0 * 0) with 0 by ring. apply sqrt_0.
Qed.
Lemma delta_zero_cross cell r U h : dot (vmat (ofZv U) cell) (vmat (ofZv h) r) <> 0 ->
  (axis_delta cell r U h = 0 <-> cross (vmat (ofZv U) cell) (vmat (ofZv h) r) = V3 0 0 0).
Proof.
  intros D. unfold axis_delta. set (t := vmat _ cell) in *. set (s := vmat _ r) in *. rewrite <- norm_0.
  pose proof (Rabs_no_R0 _ D) as A. split.
  - intros H. apply Rmult_integral in H. destruct H as [H|H].
    + assert (Q : norm (cross t s) / Rabs (dot t s) = 0).
      { destruct (Rtotal_order (norm (cross t s) / Rabs (dot t s)) 0) as [L|[L|L]]; auto; apply atan_increasing in L; rewrite atan_0 in L; lra. }
      apply (f_equal (fun x => x * Rabs (dot t s))) in Q. unfold Rdiv in Q. rewrite Rmult_assoc, Rinv_l, Rmult_1_r, Rmult_0_l in Q by auto. exact Q.
    + exfalso. unfold TODEGREES in H. pose proof PI_RGT_0. assert (0 < 180 / PI) by (apply Rdiv_lt_0_compat; lra). lra.
  - intros ->. unfold Rdiv. rewrite Rmult_0_l, atan_0. ring.
Qed.
Lemma delta_zero_iff cell r U h : mmul r (tr cell) = mscale (2 * PI) mid -> zeven (U, h) = true ->
  (axis_delta cell r U h = 0 <-> twofold (metric cell) U h).
Proof.
  intros H E. pose proof PI_RGT_0 as P0.
  assert (D : dot (vmat (ofZv U) cell) (vmat (ofZv h) r) <> 0).
  { rewrite (dual_dot _ _ _ _ H), ofZv_dot. intros Q. apply Rmult_integral in Q. destruct Q as [Q|Q]; [lra|].
    apply eq_IZR in Q. unfold zeven in E; cbn [fst snd] in E. rewrite Q in E. discriminate. }
  rewrite delta_zero_cross by auto.
  assert (TA : vmat (vmat (ofZv U) cell) (tr cell) = vmat (ofZv U) (metric cell)) by apply vmat_mmul.
  assert (SA : vmat (vmat (ofZv h) r) (tr cell) = vscale (2 * PI) (ofZv h)).
  { rewrite vmat_mmul, H, vmat_mscale, vmat_id. reflexivity. }
  split.
  - intros C. destruct (cross_0_parallel _ _ C D) as (k & K). exists (k * (2 * PI)).
    rewrite <- TA, K, vmat_scale, SA. apply vscale_scale.
  - intros (k & K). rewrite <- TA in K.
    assert (B : vscale (2 * PI) (vmat (ofZv U) cell) = vscale k (vmat (ofZv h) r)).
    { apply (f_equal (fun v => vmat v r)) in K. rewrite vmat_mmul, (dual_other _ _ H), vmat_mscale, vmat_id, vmat_scale in K. exact K. }
    set (t := vmat (ofZv U) cell) in *. set (s := vmat (ofZv h) r) in *.
    assert (C : vscale (2 * PI) (cross t s) = V3 0 0 0).
    { transitivity (cross (vscale (2 * PI) t) s); [generalize (2 * PI); clear; vring|]. rewrite B. clear. vring. }
    rewrite <- (vscale_1 (cross t s)). replace 1 with (/ (2 * PI) * (2 * PI)) by (field; lra).
    rewrite <- vscale_scale, C. clear. vunfold. vcomp; ring.
Qed.

(* ---------------- linear forms in the parameters of the metric ---------------- *)
Definition madd (a b : mat) : mat := M3 (vadd (row1 a) (row1 b)) (vadd (row2 a) (row2 b)) (vadd (row3 a) (row3 b)).
Definition mzero : mat := mk 0 0 0 0 0 0 0 0 0.
Fixpoint lin (ps : list R) (gs : list zmat) : mat :=
  match ps, gs with p :: ps', g :: gs' => madd (mscale p (ofZ g)) (lin ps' gs') | _, _ => mzero end.
Fixpoint comb (ps : list R) (zs : list Z) : R :=
  match ps, zs with p :: ps', z :: zs' => p * IZR z + comb ps' zs' | _, _ => 0 end.
Definition zform (u v : zvec) (g : zmat) : Z := zdot (ztimes u g) v.
Lemma lin_form u v : forall ps gs, dot (vmat (ofZv u) (lin ps gs)) (ofZv v) = comb ps (map (zform u v) gs).
Proof.
  induction ps as [|p ps IH]; intros gs.
  - cbn. unfold mzero. destruct (ofZv u), (ofZv v). vunfold. ring.
  - destruct gs as [|g gs]; [cbn; unfold mzero; destruct (ofZv u), (ofZv v); vunfold; ring|].
    cbn [lin map comb]. rewrite <- IH. unfold zform. rewrite <- ofZv_dot, <- ofZv_times.
    generalize (ofZv u) (ofZv v) (lin ps gs) (ofZ g). clear. unfold madd. vring.
Qed.
Lemma comb_add : forall ps a b, length a = length b -> comb ps (map (fun p => fst p + snd p)%Z (combine a b)) = comb ps a + comb ps b.
Proof.
  induction ps as [|p ps IH]; intros [|x a] [|y b] L; cbn in *; try lra; try discriminate. rewrite IH by lia. rewrite plus_IZR. lra.
Qed.

Definition zsgn (p : zvec * zvec) : Z := Z.sgn (zdot (fst p) (snd p)).
(* 2 U G l - s (U G U) (h . l) *)
Definition lam_form (gs : list zmat) (p : zvec * zvec) (l : zvec) : list Z :=
  map (fun g => 2 * zform (fst p) l g - zsgn p * zdot (snd p) l * zform (fst p) (fst p) g)%Z gs.
Definition axis_forms gs p := map (lam_form gs p) [Zv 1 0 0; Zv 0 1 0; Zv 0 0 1].
Definition zero_pair (gs : list zmat) (p : zvec * zvec) : bool := forallb (forallb (Z.eqb 0)) (axis_forms gs p).
Definition positive_form (c : list Z) : bool := forallb (Z.leb 0) c && existsb (Z.ltb 0) c.
Definition proportional (c n : list Z) : bool :=
  existsb (fun x => negb (x =? 0)%Z) c && Nat.eqb (length c) (length n) &&
  forallb (fun q => (fst (fst q) * snd (snd q) =? fst (snd q) * snd (fst q))%Z) (list_prod (combine c n) (combine c n)).
Definition lambdas : list zvec :=
  flat_map (fun n => filter (fun l => (Z.abs (zx l) + Z.abs (zy l) + Z.abs (zz l) =? n)%Z) (miller 2)) [1; 2; 3]%Z.
(* conditionals instead of || so that evaluation stops early *)
Fixpoint some {A} (f : A -> bool) (l : list A) : bool := match l with [] => false | a :: l' => if f a then true else some f l' end.
Lemma some_exists {A} (f : A -> bool) l : some f l = true -> exists a, In a l /\ f a = true.
Proof. induction l as [|a l IH]; cbn; [discriminate|]. destruct (f a) eqn:E; [eauto|]. intros H. destruct (IH H) as (b & B & F). eauto. Qed.
Definition decided (nz : list (list Z)) (gs : list zmat) (p : zvec * zvec) : bool :=
  if negb (zeven p) then true else if zero_pair gs p then true else
  some (fun l => let c := lam_form gs p l in if positive_form c then true else existsb (proportional c) nz) lambdas.
Definition all_decided nz gs := forallb (decided nz gs) pairs22.

Lemma comb_linear ps a b x : forall gs (f1 f2 : zmat -> Z),
  comb ps (map (fun g => a * f1 g - b * x * f2 g)%Z gs) = IZR a * comb ps (map f1 gs) - IZR b * IZR x * comb ps (map f2 gs).
Proof.
  induction ps as [|p ps IH]; intros gs f1 f2; [cbn; ring|]. destruct gs as [|g gs]; [cbn; ring|].
  cbn [map comb]. rewrite IH, minus_IZR, !mult_IZR. ring.
Qed.
Lemma lam_form_value ps gs p l :
  comb ps (lam_form gs p l) = 2 * dot (vmat (ofZv (fst p)) (lin ps gs)) (ofZv l)
    - IZR (zsgn p) * dot (ofZv (snd p)) (ofZv l) * dot (vmat (ofZv (fst p)) (lin ps gs)) (ofZv (fst p)).
Proof. unfold lam_form. rewrite comb_linear, !lin_form, ofZv_dot. reflexivity. Qed.
Lemma even_sgn U h : zeven (U, h) = true -> (zdot U h = 2 * zsgn (U, h) /\ zsgn (U, h) * zsgn (U, h) = 1)%Z.
Proof.
  unfold zeven, zsgn; cbn [fst snd]. intros H. apply Z.eqb_eq in H. destruct (zdot U h) as [|q|q]; cbn in *; [discriminate| |]; split; lia.
Qed.
Lemma twofold_forms ps gs U h l : zeven (U, h) = true -> twofold (lin ps gs) U h -> comb ps (lam_form gs (U, h) l) = 0.
Proof.
  intros E (k & K). rewrite lam_form_value; cbn [fst snd]. rewrite K, !dot_scale_l.
  destruct (even_sgn U h E) as (S1 & S2). apply (f_equal IZR) in S1, S2. rewrite mult_IZR in S1, S2.
  assert (D : dot (ofZv h) (ofZv U) = 2 * IZR (zsgn (U, h))).
  { rewrite <- S1, <- ofZv_dot. generalize (ofZv U) (ofZv h). clear. vring. }
  rewrite D. set (s := IZR (zsgn (U, h))) in *. replace (s * dot (ofZv h) (ofZv l) * (k * (2 * s))) with (s * s * (2 * k * dot (ofZv h) (ofZv l))) by ring.
  rewrite S2. ring.
Qed.
Lemma comb_zero : forall ps c, forallb (Z.eqb 0) c = true -> comb ps c = 0.
Proof.
  induction ps as [|p ps IH]; intros [|x c] H; cbn [comb forallb] in *; auto. apply andb_true_iff in H. destruct H as (H1 & H2).
  apply Z.eqb_eq in H1. rewrite <- H1, IH by auto. ring.
Qed.
Lemma zero_twofold ps gs U h : zeven (U, h) = true -> zero_pair gs (U, h) = true -> twofold (lin ps gs) U h.
Proof.
  intros E Z. unfold zero_pair, axis_forms in Z. cbn [map forallb] in Z. rewrite !andb_true_iff in Z. destruct Z as (Z1 & Z2 & Z3 & _).
  apply (comb_zero ps) in Z1, Z2, Z3. rewrite lam_form_value in Z1, Z2, Z3. cbn [fst snd] in *.
  exists (IZR (zsgn (U, h)) * dot (vmat (ofZv U) (lin ps gs)) (ofZv U) / 2).
  set (q := dot (vmat (ofZv U) (lin ps gs)) (ofZv U)) in *. set (s := IZR (zsgn (U, h))) in *. clearbody q s.
  destruct (vmat (ofZv U) (lin ps gs)) as [a b c]. destruct (ofZv h) as [x y z].
  unfold ofZv in Z1, Z2, Z3. cbn [Base.zx Base.zy Base.zz] in Z1, Z2, Z3. revert Z1 Z2 Z3. vunfold. intros. vcomp; lra.
Qed.
Lemma positive_value : forall ps c, Forall (fun p => 0 < p) ps -> length ps = length c -> positive_form c = true -> 0 < comb ps c.
Proof.
  intros ps c P L H. unfold positive_form in H. apply andb_true_iff in H. destruct H as (N & X).
  assert (N0 : forall ps c, Forall (fun p => 0 < p) ps -> forallb (Z.leb 0) c = true -> 0 <= comb ps c).
  { clear. induction ps as [|p ps IH]; intros [|x c] P N; cbn in *; try lra. inversion P; subst. apply andb_true_iff in N. destruct N as (N1 & N2).
    apply Z.leb_le, IZR_le in N1. specialize (IH c H2 N2). nra. }
  revert ps P L. induction c as [|x c IH]; intros [|p ps] P L; cbn in *; try discriminate.
  inversion P; subst. apply andb_true_iff in N. destruct N as (N1 & N2). apply Z.leb_le, IZR_le in N1.
  apply orb_true_iff in X. destruct X as [X|X].
  - apply Z.ltb_lt, IZR_lt in X. pose proof (N0 ps c H2 N2). nra.
  - assert (0 < comb ps c) by (apply IH; auto). nra.
Qed.
Lemma comb_scaled : forall ps c n a b, length c = length n ->
  (forall x y, In (x, y) (combine c n) -> (x * b = a * y)%Z) -> comb ps c * IZR b = IZR a * comb ps n.
Proof.
  induction ps as [|p ps IH]; intros [|x c] [|y n] a b L H; cbn in *; try discriminate; try ring.
  assert (E : (x * b = a * y)%Z) by (apply H; auto). apply (f_equal IZR) in E. rewrite !mult_IZR in E.
  assert (F : comb ps c * IZR b = IZR a * comb ps n) by (apply IH; [lia|intros; apply H; auto]).
  transitivity (p * (IZR x * IZR b) + comb ps c * IZR b); [ring|]. rewrite E, F. ring.
Qed.
Lemma proportional_value ps c n : proportional c n = true -> comb ps n <> 0 -> comb ps c <> 0.
Proof.
  unfold proportional. rewrite !andb_true_iff. intros ((X & L) & H) N Z. apply Nat.eqb_eq in L. rewrite forallb_forall in H.
  apply existsb_exists in X. destruct X as (a & A & NA). apply negb_true_iff, Z.eqb_neq in NA.
  assert (B : exists b, In (a, b) (combine c n)).
  { clear -A L. revert n L. induction c as [|x c IH]; intros [|y n] L; cbn in *; try discriminate; [destruct A|].
    destruct A as [->|A]; [eauto|]. destruct (IH A n) as (b & B); [lia|eauto]. }
  destruct B as (b & B).
  assert (S : comb ps c * IZR b = IZR a * comb ps n).
  { apply comb_scaled; auto. intros x y I. specialize (H ((x, y), (a, b))). cbn in H. apply Z.eqb_eq, H. apply in_prod; auto. }
  rewrite Z, Rmult_0_l in S. symmetry in S. apply Rmult_integral in S. destruct S as [S|S]; [|contradiction].
  apply eq_IZR in S. contradiction.
Qed.

Lemma decided_sound ps gs nz U h : Forall (fun p => 0 < p) ps -> length ps = length gs -> Forall (fun n => comb ps n <> 0) nz ->
  all_decided nz gs = true -> In U (miller 2) -> In h (miller 2) -> zeven (U, h) = true ->
  (twofold (lin ps gs) U h <-> zero_pair gs (U, h) = true).
Proof.
  intros P L N A IU Ih E. split; [|apply zero_twofold; auto]. intros T. unfold all_decided in A. rewrite forallb_forall in A.
  assert (I : In (U, h) pairs22) by (unfold pairs22; apply in_flat_map; exists U; split; auto; apply in_map; auto).
  specialize (A _ I). unfold decided in A. rewrite E in A. cbn [negb] in A. destruct (zero_pair gs (U, h)); auto. exfalso.
  apply some_exists in A. destruct A as (l & _ & A). cbv zeta in A. pose proof (twofold_forms ps gs U h l E T) as Z.
  destruct (positive_form (lam_form gs (U, h) l)) eqn:PF.
  - apply (positive_value ps) in PF; auto; [lra|]. unfold lam_form. rewrite map_length. auto.
  - apply existsb_exists in A. destruct A as (n & IN & A). rewrite Forall_forall in N. apply (proportional_value ps) in A; auto.
Qed.
