(* P_Positions.v : properties C23-C26 *)
From Verif Require Import Base M_Voronoi F_Voronoi M_Positions.
Open Scope R_scope.

(* the i-th component of a vector *)
Inductive axis3 := X1 | X2 | X3.
Definition comp (a : axis3) (v : vec) : R := match a with X1 => vx v | X2 => vy v | X3 => vz v end.

(* m is the smallest / largest a-component in the list *)
Definition smallest (a : axis3) (l : list vec) (m : R) : Prop :=
  (forall p, In p l -> m <= comp a p) /\ exists p, In p l /\ comp a p = m.
Definition largest (a : axis3) (l : list vec) (m : R) : Prop :=
  (forall p, In p l -> comp a p <= m) /\ exists p, In p l /\ comp a p = m.

Lemma comp_vmin a u v : comp a (vmin u v) = Rmin (comp a u) (comp a v).
Proof. destruct a; reflexivity. Qed.
Lemma comp_vmax a u v : comp a (vmax u v) = Rmax (comp a u) (comp a v).
Proof. destruct a; reflexivity. Qed.
Lemma comp_add a u v : comp a (vadd u v) = comp a u + comp a v.
Proof. destruct a; reflexivity. Qed.
Lemma comp_sub a u v : comp a (vsub u v) = comp a u - comp a v.
Proof. destruct a; reflexivity. Qed.
Lemma comp_scale a k v : comp a (vscale k v) = k * comp a v.
Proof. destruct a; reflexivity. Qed.
Lemma comp_ext u v : (forall a, comp a u = comp a v) -> u = v.
Proof. intros H. apply vec_eq; [apply (H X1)|apply (H X2)|apply (H X3)]. Qed.

Lemma fold_min a l : forall p, smallest a (p :: l) (comp a (fold_left vmin l p)).
Proof.
  induction l as [|q l IH]; intros p; cbn [fold_left].
  - split; [intros x [<-|[]]; lra|exists p; cbn; auto].
  - destruct (IH (vmin p q)) as [A (w & W1 & W2)]. rewrite <- W2 in *. split.
    + intros x [<-|[<-|Hx]].
      * specialize (A _ (or_introl eq_refl)). rewrite comp_vmin in A. pose proof (Rmin_l (comp a p) (comp a q)). lra.
      * specialize (A _ (or_introl eq_refl)). rewrite comp_vmin in A. pose proof (Rmin_r (comp a p) (comp a q)). lra.
      * apply A. right. auto.
    + destruct W1 as [<-|W1]; [|exists w; cbn; auto]. rewrite comp_vmin. unfold Rmin. destruct (Rle_dec _ _); [exists p|exists q]; cbn; auto.
Qed.
Lemma fold_max a l : forall p, largest a (p :: l) (comp a (fold_left vmax l p)).
Proof.
  induction l as [|q l IH]; intros p; cbn [fold_left].
  - split; [intros x [<-|[]]; lra|exists p; cbn; auto].
  - destruct (IH (vmax p q)) as [A (w & W1 & W2)]. rewrite <- W2 in *. split.
    + intros x [<-|[<-|Hx]].
      * specialize (A _ (or_introl eq_refl)). rewrite comp_vmax in A. pose proof (Rmax_l (comp a p) (comp a q)). lra.
      * specialize (A _ (or_introl eq_refl)). rewrite comp_vmax in A. pose proof (Rmax_r (comp a p) (comp a q)). lra.
      * apply A. right. auto.
    + destruct W1 as [<-|W1]; [|exists w; cbn; auto]. rewrite comp_vmax. unfold Rmax. destruct (Rle_dec _ _); [exists q|exists p]; cbn; auto.
Qed.
Lemma smallest_unique a l m n : smallest a l m -> smallest a l n -> m = n.
Proof. intros [A (p & Hp & <-)] [B (q & Hq & <-)]. apply Rle_antisym; auto. Qed.
Lemma largest_unique a l m n : largest a l m -> largest a l n -> m = n.
Proof. intros [A (p & Hp & <-)] [B (q & Hq & <-)]. apply Rle_antisym; auto. Qed.
Lemma smallest_shift a l s m : smallest a l m -> smallest a (map (fun p => vadd p s) l) (m + comp a s).
Proof.
  intros [A (p & Hp & <-)]. split.
  - intros q Hq. apply in_map_iff in Hq. destruct Hq as (x & <- & Hx). rewrite comp_add. specialize (A x Hx). lra.
  - exists (vadd p s). split; [apply in_map_iff; eauto|apply comp_add].
Qed.
Lemma largest_shift a l s m : largest a l m -> largest a (map (fun p => vadd p s) l) (m + comp a s).
Proof.
  intros [A (p & Hp & <-)]. split.
  - intros q Hq. apply in_map_iff in Hq. destruct Hq as (x & <- & Hx). rewrite comp_add. specialize (A x Hx). lra.
  - exists (vadd p s). split; [apply in_map_iff; eauto|apply comp_add].
Qed.

(* the new list is the old one moved rigidly *)
Definition rigid (old new : list vec) : Prop :=
  length new = length old /\
  forall i j pi pj qi qj, nth_error old i = Some pi -> nth_error old j = Some pj ->
    nth_error new i = Some qi -> nth_error new j = Some qj -> vsub qj qi = vsub pj pi.
Lemma rigid_shift s l : rigid l (map (fun p => vadd p s) l).
Proof.
  split; [apply map_length|]. intros i j pi pj qi qj A B C D. rewrite nth_error_map, A in C. rewrite nth_error_map, B in D.
  injection C as <-. injection D as <-. clear; vring.
Qed.

(* ================= C23 ================= *)
Lemma shift_form positions g rel cell new : shift_atoms positions g rel cell = Ok new ->
  exists gp lo hi, (rel = true -> gp = g) /\ (rel = false -> exists c, cell = Some c /\ det c <> 0 /\ vmat gp c = g) /\
    (forall a, smallest a positions (comp a lo)) /\ (forall a, largest a positions (comp a hi)) /\
    new = map (fun p => vadd p (vsub gp (vscale (/ 2) (vadd hi lo)))) positions.
Proof.
  unfold shift_atoms. intros H.
  assert (G : exists gp, (if rel then Ok g else match cell with None => Err ValueError | Some c => do i <- minv c; Ok (vmat g i) end) = Ok gp
     /\ (rel = true -> gp = g) /\ (rel = false -> exists c, cell = Some c /\ det c <> 0 /\ vmat gp c = g)).
  { destruct rel; [exists g; repeat split; auto; discriminate|]. destruct cell as [c|]; [|discriminate].
    destruct (minv c) as [i|] eqn:E; [|discriminate]. apply minv_ok in E. destruct E as [D ->].
    eexists. split; [reflexivity|]. split; [discriminate|]. intros _. exists c. repeat split; auto.
    rewrite vmat_mmul, minv_l, vmat_id; auto. }
  destruct G as (gp & E & G1 & G2). rewrite E in H. cbn [bind] in H.
  destruct positions as [|p l]; [discriminate|]. cbn [np_min np_max bind] in H.
  exists gp, (fold_left vmin l p), (fold_left vmax l p). split; [exact G1|]. split; [exact G2|].
  split; [intros a; apply fold_min|]. split; [intros a; apply fold_max|].
  assert (Q : forall A (x y : A), Ok x = Ok y -> y = x) by congruence. apply Q in H. rewrite H. apply map_ext. intros q.
  clear. generalize (fold_left vmin l p) (fold_left vmax l p). vring.
Qed.

Theorem C23_centred : forall positions g rel cell new, shift_atoms positions g rel cell = Ok new ->
  exists gp, (rel = true -> gp = g) /\ (rel = false -> exists c, cell = Some c /\ vmat gp c = g) /\
  forall a lo hi, smallest a new lo -> largest a new hi -> (lo + hi) / 2 = comp a gp.
Proof.
  intros positions g rel cell new H. destruct (shift_form _ _ _ _ _ H) as (gp & lo & hi & G1 & G2 & L & U & ->).
  exists gp. split; auto. split; [intros Hr; destruct (G2 Hr) as (c & A & _ & B); eauto|]. intros a lo' hi' Hlo Hhi.
  rewrite (smallest_unique _ _ _ _ Hlo (smallest_shift _ _ _ _ (L a))).
  rewrite (largest_unique _ _ _ _ Hhi (largest_shift _ _ _ _ (U a))).
  rewrite comp_sub, comp_scale, comp_add. lra.
Qed.
Print Assumptions C23_centred.

Theorem C23_rigid : forall positions g rel cell new, shift_atoms positions g rel cell = Ok new -> rigid positions new.
Proof.
  intros positions g rel cell new H. destruct (shift_form _ _ _ _ _ H) as (gp & lo & hi & _ & _ & _ & _ & ->).
  apply rigid_shift.
Qed.
Print Assumptions C23_rigid.

Theorem C23_idempotent : forall positions g rel cell new, shift_atoms positions g rel cell = Ok new ->
  shift_atoms new g rel cell = Ok new.
Proof.
  intros positions g rel cell new H. pose proof (shift_form _ _ _ _ _ H) as (gp & lo & hi & G1 & G2 & L & U & E).
  assert (S : exists new2, shift_atoms new g rel cell = Ok new2).
  { unfold shift_atoms in *. destruct (if rel then Ok g else match cell with None => Err ValueError | Some c => do i <- minv c; Ok (vmat g i) end); [|discriminate].
    cbn [bind] in *. destruct positions as [|p l]; [discriminate|]. rewrite E. cbn. eauto. }
  destruct S as [new2 S]. rewrite S. f_equal.
  destruct (shift_form _ _ _ _ _ S) as (gp2 & lo2 & hi2 & K1 & K2 & L2 & U2 & E2).
  assert (GG : gp2 = gp).
  { destruct rel; [rewrite G1, K1; auto|]. destruct (G2 eq_refl) as (c & C1 & C2 & C3). destruct (K2 eq_refl) as (c' & D1 & D2 & D3).
    assert (c' = c) by congruence. subst c'. apply (vmat_cancel c); auto. congruence. }
  subst gp2. rewrite E2. rewrite <- (map_id new) at 2. apply map_ext. intros q. apply comp_ext. intros a.
  rewrite comp_add, comp_sub, comp_scale, comp_add.
  assert (N1 : comp a lo2 = comp a lo + comp a (vsub gp (vscale (/ 2) (vadd hi lo)))).
  { apply (smallest_unique a new); [apply L2|rewrite E; apply smallest_shift; auto]. }
  assert (N2 : comp a hi2 = comp a hi + comp a (vsub gp (vscale (/ 2) (vadd hi lo)))).
  { apply (largest_unique a new); [apply U2|rewrite E; apply largest_shift; auto]. }
  rewrite N1, N2.
  rewrite comp_sub, comp_scale, comp_add. lra.
Qed.
Print Assumptions C23_idempotent.

(* When it fails. *)
Theorem C23_failures : forall positions g rel cell, 
  (positions <> [] -> rel = true \/ (exists c, cell = Some c /\ det c <> 0) ->
    exists new, shift_atoms positions g rel cell = Ok new) /\
  (rel = false -> cell = None -> shift_atoms positions g rel cell = Err ValueError) /\
  (rel = false -> forall c, cell = Some c -> det c = 0 -> shift_atoms positions g rel cell = Err LinAlgError) /\
  (positions = [] -> rel = true -> shift_atoms positions g rel cell = Err ValueError).
Proof.
  intros positions g rel cell. repeat split.
  - intros NE G. unfold shift_atoms.
    assert (Q : exists gp, (if rel then Ok g else match cell with None => Err ValueError | Some c => do i <- minv c; Ok (vmat g i) end) = Ok gp).
    { destruct rel; [eauto|]. destruct G as [G|(c & -> & D)]; [discriminate|]. rewrite (proj2 (minv_ok c (minv_total c))) by auto. cbn. eauto. }
    destruct Q as [gp ->]. cbn [bind]. destruct positions; [congruence|]. cbn. eauto.
  - intros -> ->. reflexivity.
  - intros -> c -> D. unfold shift_atoms. rewrite (proj2 (minv_err c LinAlgError)) by auto. reflexivity.
  - intros -> ->. reflexivity.
Qed.
Print Assumptions C23_failures.
Example C23_case : exists new, shift_atoms [V3 0 0 0; V3 (1/2) (1/2) 1] (V3 1 1 1) false (Some (mk 2 0 0 0 2 0 0 0 2)) = Ok new.
Proof. apply (C23_failures _ _ _ _); [discriminate|]. right. eexists. split; [reflexivity|]. vunfold. lra. Qed.

(* ================= C24 ================= *)
Lemma cure_form b positions new : cure_negative b positions = Ok new ->
  exists m, (forall a, smallest a positions (comp a m)) /\
    new = map (fun q => vadd q (V3 (cure1 (vx m)) (cure1 (vy m)) (cure1 (vz m)))) positions.
Proof.
  destruct positions as [|p l]; [discriminate|]. unfold cure_negative. intros H.
  exists (fold_left vmin l p). split; [intros a; apply fold_min|]. destruct l, b; try discriminate; congruence.
Qed.
Lemma comp_cure a m : comp a (V3 (cure1 (vx m)) (cure1 (vy m)) (cure1 (vz m))) = cure1 (comp a m).
Proof. destruct a; reflexivity. Qed.

Theorem C24_nonnegative_and_minimal : forall b positions new a lo, cure_negative b positions = Ok new ->
  smallest a positions lo ->
  (forall p, In p new -> 0 <= comp a p) /\
  (0 <= lo -> map (comp a) new = map (comp a) positions) /\
  (lo < 0 -> smallest a new 0).
Proof.
  intros b positions new a lo H S. destruct (cure_form _ _ _ H) as (m & M & ->).
  pose proof (smallest_unique _ _ _ _ S (M a)) as ->. pose proof (smallest_shift a positions (V3 (cure1 (vx m)) (cure1 (vy m)) (cure1 (vz m))) _ (M a)) as SH.
  rewrite comp_cure in SH.
  assert (CE : cure1 (comp a m) = if Rltb (comp a m) 0 then - comp a m else 0) by reflexivity. rewrite CE in SH. clear CE. destruct (Rltb_spec (comp a m) 0) as [G|G]; (split; [|split]).
  - intros p Hp. destruct SH as [A _]. specialize (A p Hp). lra.
  - intros; lra.
  - replace (comp a m + - comp a m) with 0 in SH by ring. intros _. exact SH.
  - intros p Hp. destruct SH as [A _]. specialize (A p Hp). lra.
  - intros _. rewrite map_map. apply map_ext. intros q. rewrite comp_add, comp_cure. unfold cure1. destruct (Rltb_spec (comp a m) 0); [contradiction|]. ring.
  - intros; lra.
Qed.
Print Assumptions C24_nonnegative_and_minimal.

Theorem C24_rigid : forall b positions new, cure_negative b positions = Ok new -> rigid positions new.
Proof. intros b positions new H. destruct (cure_form _ _ _ H) as (m & M & ->). apply rigid_shift. Qed.
Print Assumptions C24_rigid.

(* after one call the rows are numpy arrays *)
Theorem C24_idempotent : forall b positions new, cure_negative b positions = Ok new -> cure_negative true new = Ok new.
Proof.
  intros b positions new H.
  assert (S : exists new2, cure_negative true new = Ok new2).
  { destruct (cure_form _ _ _ H) as (m & M & ->). destruct positions as [|p l]; [discriminate|]. cbn [map]. unfold cure_negative.
    destruct (map _ l); eauto. }
  destruct S as [new2 S]. rewrite S. f_equal. destruct (cure_form _ _ _ S) as (m2 & M2 & ->).
  rewrite <- (map_id new) at 2. apply map_ext. intros q. apply comp_ext. intros a. rewrite comp_add, comp_cure.
  destruct (cure_form _ _ _ H) as (m & M & _).
  destruct (C24_nonnegative_and_minimal _ _ _ a _ H (M a)) as (A & _ & _).
  destruct (M2 a) as [_ (w & W1 & W2)]. specialize (A w W1). rewrite W2 in A. unfold cure1. destruct (Rltb_spec (comp a m2) 0); lra.
Qed.
Print Assumptions C24_idempotent.

Theorem C24_failures : forall b positions e, cure_negative b positions = Err e <->
  (positions = [] /\ e = IndexError) \/ (length positions = 1%nat /\ b = false /\ e = TypeError).
Proof.
  intros b positions e. destruct positions as [|p [|q l]]; destruct b; cbn; split; intros H; try discriminate;
    try (destruct H as [[H1 H2]|(H1 & H2 & H3)]; try discriminate; subst; reflexivity).
  - left. split; congruence.
  - left. split; congruence.
  - right. repeat split; congruence.
Qed.
Print Assumptions C24_failures.
Example C24_case : cure_negative false [V3 (-1/2) (1/2) 0; V3 (1/10) (1/2) 0] = Ok [V3 0 (1/2) 0; V3 (6/10) (1/2) 0].
Proof.
  cbn. unfold cure1. cbn. f_equal. unfold Rmin. destruct (Rle_dec (-1/2) (1/10)); [|lra]. destruct (Rle_dec (1/2) (1/2)); [|lra]. destruct (Rle_dec 0 0); [|lra].
  destruct (Rltb_spec (-1/2) 0); [|lra]. destruct (Rltb_spec (1/2) 0); [lra|]. destruct (Rltb_spec 0 0); [lra|].
  f_equal; [|f_equal]; unfold vadd; cbn; f_equal; lra.
Qed.

(* ================= C25 ================= *)
Lemma int_part_bounds x : IZR (Int_part x) <= x < IZR (Int_part x) + 1.
Proof. destruct (base_Int_part x) as [A B]. lra. Qed.
Lemma py_int_pos x : 0 <= x -> 0 <= x - IZR (py_int x) < 1.
Proof. intros H. unfold py_int. destruct (Rltb_spec x 0); [lra|]. pose proof (int_part_bounds x). lra. Qed.
Lemma py_int_neg x : x < 0 -> -1 < x - IZR (py_int x) <= 0.
Proof.
  intros H. unfold py_int. destruct (Rltb_spec x 0); [|lra]. rewrite opp_IZR. pose proof (int_part_bounds (- x)). lra.
Qed.
Lemma wrap01_range x : 0 <= wrap01 x < 1.
Proof.
  unfold wrap01. destruct (Rltb_spec x 0) as [G|G].
  - pose proof (py_int_neg x G). destruct (Rltb_spec (x - IZR (py_int x)) 0); lra.
  - pose proof (py_int_pos x ltac:(lra)). destruct (Rltb_spec (x - IZR (py_int x)) 0); lra.
Qed.
Lemma wrap01_integer x : exists z, wrap01 x = x + IZR z.
Proof.
  unfold wrap01. destruct (Rltb_spec (x - IZR (py_int x)) 0).
  - exists (1 - py_int x)%Z. rewrite minus_IZR. ring.
  - exists (- py_int x)%Z. rewrite opp_IZR. ring.
Qed.
Lemma wrap01_unique x y : 0 <= y < 1 -> (exists z, y = x + IZR z) -> y = wrap01 x.
Proof.
  intros Hy [z Hz]. pose proof (wrap01_range x) as R. destruct (wrap01_integer x) as [w Hw].
  assert (E : IZR (z - w) = y - wrap01 x) by (rewrite minus_IZR, Hz, Hw; ring).
  assert (z - w = 0)%Z.
  { assert (-1 < z - w < 1)%Z; [|lia]. split; apply lt_IZR; rewrite E; cbn; lra. }
  rewrite H in E. cbn in E. lra.
Qed.

(* every coordinate goes to the only number of [0,1) that differs from it by an integer *)
Theorem C25_wraps : forall positions i p, nth_error positions i = Some p ->
  exists q, nth_error (ensure_000 positions) i = Some q /\
  forall a, 0 <= comp a q < 1 /\ (exists z, comp a q = comp a p + IZR z) /\
    (forall y, 0 <= y < 1 -> (exists z, y = comp a p + IZR z) -> y = comp a q).
Proof.
  intros positions i p H. unfold ensure_000. rewrite nth_error_map, H. cbn. eexists. split; [reflexivity|].
  assert (E : forall a, comp a (V3 (wrap01 (vx p)) (wrap01 (vy p)) (wrap01 (vz p))) = wrap01 (comp a p)) by (intros []; reflexivity).
  intros a. rewrite E. split; [apply wrap01_range|]. split; [apply wrap01_integer|]. intros y. apply wrap01_unique.
Qed.
Print Assumptions C25_wraps.

Theorem C25_same_number : forall positions, length (ensure_000 positions) = length positions.
Proof. intros. apply map_length. Qed.

Theorem C25_idempotent : forall positions, ensure_000 (ensure_000 positions) = ensure_000 positions.
Proof.
  intros positions. unfold ensure_000. rewrite map_map. apply map_ext. intros p. cbn.
  assert (W : forall x, wrap01 (wrap01 x) = wrap01 x).
  { intros x. symmetry. apply wrap01_unique; [apply wrap01_range|]. exists 0%Z. ring. }
  rewrite !W. reflexivity.
Qed.
Print Assumptions C25_idempotent.

(* positions that differ by a lattice vector become equal *)
Theorem C25_canonical : forall p (z : zvec), ensure_000 [vadd p (ofZv z)] = ensure_000 [p].
Proof.
  intros p z. unfold ensure_000. cbn [map]. f_equal.
  assert (W : forall x n, wrap01 (x + IZR n) = wrap01 x).
  { intros x n. apply wrap01_unique; [apply wrap01_range|]. destruct (wrap01_integer (x + IZR n)) as [w Hw].
    exists (n + w)%Z. rewrite Hw, plus_IZR. ring. }
  unfold vadd, ofZv. cbn. rewrite !W. reflexivity.
Qed.
Print Assumptions C25_canonical.
Example C25_case : ensure_000 [V3 (-5/4) 2 (19/8)] = [V3 (3/4) 0 (3/8)].
Proof.
  unfold ensure_000. cbn. f_equal. apply vec_eq; cbn; symmetry; apply wrap01_unique; try lra.
  - exists 2%Z. lra.
  - exists (-2)%Z. lra.
  - exists (-2)%Z. lra.
Qed.

(* ================= C26 ================= *)
Definition zopp (r : zvec) : zvec := Zv (- zx r) (- zy r) (- zz r).
Definition zplus (r s : zvec) : zvec := Zv (zx r + zx s) (zy r + zy s) (zz r + zz s).
Lemma ofZv_opp r : ofZv (zopp r) = vneg (ofZv r).
Proof. unfold ofZv, zopp, vneg; cbn; rewrite !opp_IZR; reflexivity. Qed.
Lemma ofZv_plus r s : ofZv (zplus r s) = vadd (ofZv r) (ofZv s).
Proof. unfold ofZv, zplus, vadd; cbn; rewrite !plus_IZR; reflexivity. Qed.
Lemma get_vector_inv cell pos a b r rel v : get_vector cell pos a b r rel = Ok v ->
  exists p1 p2, np_index pos a = Ok p1 /\ np_index pos b = Ok p2 /\
    v = if rel then vsub (vadd (ofZv r) p2) p1 else vmat (vsub (vadd (ofZv r) p2) p1) cell.
Proof.
  unfold get_vector. destruct (np_index pos b) as [p2|]; [|discriminate]. destruct (np_index pos a) as [p1|]; [|discriminate].
  cbn. intros H. exists p1, p2. repeat split; congruence.
Qed.

Theorem C26_antisymmetric : forall cell pos a b r rel v w,
  get_vector cell pos a b r rel = Ok v -> get_vector cell pos b a (zopp r) rel = Ok w -> w = vneg v.
Proof.
  intros cell pos a b r rel v w H1 H2. destruct (get_vector_inv _ _ _ _ _ _ _ H1) as (p1 & p2 & A & B & ->).
  destruct (get_vector_inv _ _ _ _ _ _ _ H2) as (q1 & q2 & C & D & ->).
  assert (q1 = p2) by congruence. assert (q2 = p1) by congruence. subst. rewrite ofZv_opp.
  destruct rel; [|rewrite <- vmat_neg; f_equal]; clear; generalize (ofZv r); vring.
Qed.
Print Assumptions C26_antisymmetric.

Theorem C26_chain : forall cell pos a b c r s rel u v w,
  get_vector cell pos a b r rel = Ok u -> get_vector cell pos b c s rel = Ok v ->
  get_vector cell pos a c (zplus r s) rel = Ok w -> w = vadd u v.
Proof.
  intros cell pos a b c r s rel u v w H1 H2 H3.
  destruct (get_vector_inv _ _ _ _ _ _ _ H1) as (p1 & p2 & A & B & ->).
  destruct (get_vector_inv _ _ _ _ _ _ _ H2) as (q1 & q2 & C & D & ->).
  destruct (get_vector_inv _ _ _ _ _ _ _ H3) as (t1 & t2 & E & F & ->).
  assert (q1 = p2) by congruence. assert (t1 = p1) by congruence. assert (t2 = q2) by congruence. subst. rewrite ofZv_plus.
  destruct rel; [|rewrite <- vmat_add; f_equal]; clear; generalize (ofZv r) (ofZv s); vring.
Qed.
Print Assumptions C26_chain.

Theorem C26_relative_times_cell : forall cell pos a b r u v,
  get_vector cell pos a b r true = Ok u -> get_vector cell pos a b r false = Ok v -> v = vmat u cell.
Proof.
  intros cell pos a b r u v H1 H2. destruct (get_vector_inv _ _ _ _ _ _ _ H1) as (p1 & p2 & A & B & ->).
  destruct (get_vector_inv _ _ _ _ _ _ _ H2) as (q1 & q2 & C & D & ->). congruence.
Qed.
Print Assumptions C26_relative_times_cell.

(* It fails only for indices out of range -N..N-1. *)
Theorem C26_total : forall cell pos a b r rel,
  (- Z.of_nat (length pos) <= a < Z.of_nat (length pos))%Z -> (- Z.of_nat (length pos) <= b < Z.of_nat (length pos))%Z ->
  exists v, get_vector cell pos a b r rel = Ok v.
Proof.
  intros cell pos a b r rel Ha Hb.
  assert (I : forall i, (- Z.of_nat (length pos) <= i < Z.of_nat (length pos))%Z -> exists p, np_index pos i = Ok p).
  { intros i Hi. unfold np_index. set (j := if (i <? 0)%Z then (i + Z.of_nat (length pos))%Z else i).
    assert (J : (0 <= j < Z.of_nat (length pos))%Z) by (unfold j; destruct (Z.ltb_spec i 0); lia).
    destruct (Z.ltb_spec j 0); [lia|]. destruct (Z.leb_spec (Z.of_nat (length pos)) j); [lia|]. cbn [orb].
    destruct (nth_error pos (Z.to_nat j)) eqn:E; [eauto|]. apply nth_error_None in E. lia. }
  destruct (I a Ha) as [p1 E1]. destruct (I b Hb) as [p2 E2]. unfold get_vector. rewrite E1, E2. cbn. eauto.
Qed.
Print Assumptions C26_total.

Lemma get_distance_inv cell pos a b r d : get_distance cell pos a b r = Ok d ->
  exists v, get_vector cell pos a b r false = Ok v /\ d = norm v.
Proof. unfold get_distance. destruct (get_vector _ _ _ _ _ _) as [v|]; [|discriminate]. cbn. intros H. exists v. split; congruence. Qed.

Lemma norm_triangle u v : norm (vadd u v) <= norm u + norm v.
Proof.
  apply Rsqr_incr_0_var; [|pose proof (norm_nonneg u); pose proof (norm_nonneg v); lra].
  unfold Rsqr. rewrite norm_sqr.
  replace ((norm u + norm v) * (norm u + norm v)) with (norm u * norm u + 2 * (norm u * norm v) + norm v * norm v) by ring.
  rewrite !norm_sqr. pose proof (cauchy_schwarz u v). pose proof (Rle_abs (dot u v)).
  replace (dot (vadd u v) (vadd u v)) with (dot u u + 2 * dot u v + dot v v) by (clear; vring). lra.
Qed.

Theorem C26_distance_symmetric : forall cell pos a b r d e,
  get_distance cell pos a b r = Ok d -> get_distance cell pos b a (zopp r) = Ok e -> d = e /\ 0 <= d.
Proof.
  intros cell pos a b r d e H1 H2. apply get_distance_inv in H1, H2. destruct H1 as (v & V & ->). destruct H2 as (w & W & ->).
  rewrite (C26_antisymmetric _ _ _ _ _ _ _ _ V W), norm_neg. split; auto. apply norm_nonneg.
Qed.
Print Assumptions C26_distance_symmetric.

Theorem C26_distance_triangle : forall cell pos a b c r s d1 d2 d3,
  get_distance cell pos a b r = Ok d1 -> get_distance cell pos b c s = Ok d2 ->
  get_distance cell pos a c (zplus r s) = Ok d3 -> d3 <= d1 + d2.
Proof.
  intros cell pos a b c r s d1 d2 d3 H1 H2 H3. apply get_distance_inv in H1, H2, H3.
  destruct H1 as (u & U & ->). destruct H2 as (v & V & ->). destruct H3 as (w & W & ->).
  rewrite (C26_chain _ _ _ _ _ _ _ _ _ _ _ U V W). apply norm_triangle.
Qed.
Print Assumptions C26_distance_triangle.

Theorem C26_distance_zero : forall cell pos a b r d p1 p2, det cell <> 0 ->
  np_index pos a = Ok p1 -> np_index pos b = Ok p2 -> get_distance cell pos a b r = Ok d ->
  (d = 0 <-> vadd p2 (ofZv r) = p1).
Proof.
  intros cell pos a b r d p1 p2 D A B H. apply get_distance_inv in H. destruct H as (v & V & ->).
  destruct (get_vector_inv _ _ _ _ _ _ _ V) as (q1 & q2 & Q1 & Q2 & ->).
  assert (q1 = p1) by congruence. assert (q2 = p2) by congruence. subst. rewrite norm_zero_iff. split; intros H.
  - assert (Z : vmat vzero cell = vzero) by (clear; destruct cell as [[] [] []]; vunfold; vcomp; ring). rewrite <- Z in H.
    apply vmat_cancel in H; auto. clear - H.
    destruct (ofZv r) as [x y z], p1 as [a1 b1 c1], p2 as [a2 b2 c2]. unfold vsub, vadd, vzero in *. cbn in *.
    pose proof (f_equal vx H) as Hx. pose proof (f_equal vy H) as Hy. pose proof (f_equal vz H) as Hz. cbn in Hx, Hy, Hz.
    f_equal; lra.
  - rewrite <- H. clear. generalize (ofZv r). intros. destruct cell as [[] [] []]. destruct p2, v. vunfold. vcomp; ring.
Qed.
Print Assumptions C26_distance_zero.

(* distances do not change when the structure is moved rigidly (shift_atoms, cure_negative) *)
Lemma np_index_nth {A} (l : list A) i : exists k : nat, (forall a, np_index l i = Ok a <-> nth_error l k = Some a) /\
  forall (m : list A), length m = length l -> forall a, np_index m i = Ok a <-> nth_error m k = Some a.
Proof.
  set (j := if (i <? 0)%Z then (i + Z.of_nat (length l))%Z else i).
  exists (if (j <? 0)%Z then length l else Z.to_nat j).
  assert (G : forall m : list A, length m = length l -> forall a, np_index m i = Ok a <-> nth_error m (if (j <? 0)%Z then length l else Z.to_nat j) = Some a).
  { intros m Lm a. unfold np_index. rewrite Lm. fold j. destruct (Z.ltb_spec j 0).
    - cbn [orb]. rewrite (proj2 (nth_error_None m (length l))) by lia. split; discriminate.
    - destruct (Z.leb_spec (Z.of_nat (length l)) j); cbn [orb].
      + rewrite (proj2 (nth_error_None m (Z.to_nat j))) by lia. split; discriminate.
      + destruct (nth_error m (Z.to_nat j)); split; congruence. }
  split; [apply G; reflexivity|exact G].
Qed.
Theorem C26_distance_rigid : forall cell old new a b r d e, rigid old new ->
  get_distance cell old a b r = Ok d -> get_distance cell new a b r = Ok e -> d = e.
Proof.
  intros cell old new a b r d e [L R] H1 H2. apply get_distance_inv in H1, H2. destruct H1 as (v & V & ->). destruct H2 as (w & W & ->).
  destruct (get_vector_inv _ _ _ _ _ _ _ V) as (p1 & p2 & P1 & P2 & ->).
  destruct (get_vector_inv _ _ _ _ _ _ _ W) as (q1 & q2 & Q1 & Q2 & ->).
  destruct (np_index_nth old a) as (ka & A1 & A2). destruct (np_index_nth old b) as (kb & B1 & B2).
  apply A1 in P1. apply B1 in P2. apply (A2 new L) in Q1. apply (B2 new L) in Q2.
  pose proof (R ka kb p1 p2 q1 q2 P1 P2 Q1 Q2) as E. f_equal. f_equal.
  replace (vsub (vadd (ofZv r) p2) p1) with (vadd (ofZv r) (vsub p2 p1)) by (clear; generalize (ofZv r); vring).
  rewrite <- E. clear; generalize (ofZv r); vring.
Qed.
Print Assumptions C26_distance_rigid.
Example C26_case : get_vector (mk 1 0 0 0 2 0 0 0 3) [V3 (1/2) 0 0; V3 0 0 (1/2)] 0 (-1) (Zv 1 0 (-3)) true = Ok (V3 (1/2) 0 (-5/2)).
Proof. unfold get_vector, np_index. cbn -[IZR vsub vadd ofZv Z.to_nat]. change (Z.to_nat 1) with 1%nat. cbn -[IZR vsub vadd ofZv]. f_equal. unfold vsub, vadd, ofZv. cbn [vx vy vz zx zy zz]. f_equal; lra. Qed.
