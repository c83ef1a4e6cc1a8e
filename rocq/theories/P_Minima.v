(* P_Minima.v : properties C72 (the vectors of a reduced cell are the shortest ones) and
   C73 (the reduced cell is unique) *)
From Verif Require Import Base M_Strings M_Numerical F_Numerical M_Geometry F_Geometry M_Cell
  M_Niggli S_Niggli F_Niggli F_NiggliQ F_Voronoi P_Niggli F_Minima F_NiggliUnique F_Conventional F_Zone F_ZoneCells P_Orientation.
From Verif Require F_NiggliCheck.
Open Scope R_scope.

(* ================= C72 ================= *)
Lemma norm_le u v : len2 u <= len2 v -> norm u <= norm v.
Proof. intros H. unfold norm. apply sqrt_le_1_alt. exact H. Qed.

(* Any vectors of the lattice, whatever the cell they are written in. *)
Theorem C72_shortest_vectors : forall cell, det cell <> 0 -> niggli_reduced cell ->
  forall u v w, in_lattice cell u -> in_lattice cell v -> in_lattice cell w ->
  (u <> vzero -> norm (row1 cell) <= norm u) /\
  (cross u v <> vzero -> norm (row2 cell) <= Rmax (norm u) (norm v)) /\
  (dot u (cross v w) <> 0 -> norm (row3 cell) <= Rmax (norm u) (Rmax (norm v) (norm w))).
Proof.
  intros c D R u v w [nu Eu] [nv Ev] [nw Ew]. split; [|split].
  - intros N. apply norm_le. rewrite Eu. apply min_1; auto. intros (Z1 & Z2 & Z3). apply N.
    rewrite Eu. destruct nu. cbn in Z1, Z2, Z3. subst. unfold ofZv. vunfold. cbn. f_equal; ring.
  - intros N. assert (K : (zy nu <> 0 \/ zz nu <> 0)%Z \/ (zy nv <> 0 \/ zz nv <> 0)%Z).
    { destruct (Z.eq_dec (zy nu) 0) as [A1|A1], (Z.eq_dec (zz nu) 0) as [A2|A2],
        (Z.eq_dec (zy nv) 0) as [A3|A3], (Z.eq_dec (zz nv) 0) as [A4|A4]; auto.
      exfalso. apply N. rewrite Eu, Ev. destruct nu, nv. cbn in A1, A2, A3, A4. subst.
      destruct c as [[] [] []]. unfold ofZv. vunfold. cbn. f_equal; ring. }
    destruct K as [K | K].
    + eapply Rle_trans; [|apply Rmax_l]. apply norm_le. rewrite Eu. apply min_2; auto.
    + eapply Rle_trans; [|apply Rmax_r]. apply norm_le. rewrite Ev. apply min_2; auto.
  - intros N. assert (K : (zz nu <> 0 \/ zz nv <> 0 \/ zz nw <> 0)%Z).
    { destruct (Z.eq_dec (zz nu) 0) as [A1|A1], (Z.eq_dec (zz nv) 0) as [A2|A2],
        (Z.eq_dec (zz nw) 0) as [A3|A3]; auto.
      exfalso. apply N. rewrite Eu, Ev, Ew. destruct nu, nv, nw. cbn in A1, A2, A3. subst.
      destruct c as [[] [] []]. unfold ofZv. vunfold. cbn. ring. }
    destruct K as [K | [K | K]].
    + eapply Rle_trans; [|apply Rmax_l]. apply norm_le. rewrite Eu. apply min_3; auto.
    + eapply Rle_trans; [|apply Rmax_r]. eapply Rle_trans; [|apply Rmax_l].
      apply norm_le. rewrite Ev. apply min_3; auto.
    + eapply Rle_trans; [|apply Rmax_r]. eapply Rle_trans; [|apply Rmax_r].
      apply norm_le. rewrite Ew. apply min_3; auto.
Qed.
Print Assumptions C72_shortest_vectors.

Theorem C72_niggli_shortest : forall sp cell q eps_relative max_iterations cell',
  let eps := eps_relative * Rpower (Rabs (det cell)) (1 / 3) in
  quantised q (cell_params cell) ->
  default_atol < q -> 0 <= eps < q -> eps < q * q * q ->
  get_niggli sp cell eps_relative "wulfric" max_iterations = Ok cell' ->
  norm (row1 cell') <= norm (row2 cell') <= norm (row3 cell') /\
  forall u v w, in_lattice cell u -> in_lattice cell v -> in_lattice cell w ->
  (u <> vzero -> norm (row1 cell') <= norm u) /\
  (cross u v <> vzero -> norm (row2 cell') <= Rmax (norm u) (norm v)) /\
  (dot u (cross v w) <> 0 -> norm (row3 cell') <= Rmax (norm u) (Rmax (norm v) (norm w))).
Proof.
  intros sp cell q er mx cell' eps Q Q8 E1 E3 H.
  destruct (C12_returned_cell_reduced sp cell q er mx cell' Q Q8 E1 E3 H) as [R S].
  assert (D : det cell' <> 0).
  { apply wulfric_ok in H. destruct H as (p & t & n & Rn & ->). rewrite run_unfold in Rn.
    destruct (Reqb (Rabs (det cell)) 0) eqn:Z0; [discriminate|]. apply abs_nz in Z0.
    assert (U : unimodular (ztr t)).
    { apply unimodular_tr. eapply loop_uni; [|exact Rn]. left; reflexivity. }
    rewrite det_mmul, ofZ_det. destruct U as [-> | ->]; lra. }
  split.
  - pose proof (red_AB _ _ R). pose proof (red_BC _ _ R). cbn in *. split; apply norm_le; unfold len2; lra.
  - intros u v w Hu Hv Hw. apply C72_shortest_vectors; auto; apply S; auto.
Qed.
Print Assumptions C72_niggli_shortest.

(* ================= C73 ================= *)
Lemma same_lengths c1 c2 : det c1 <> 0 -> same_lattice c1 c2 -> niggli_reduced c1 -> niggli_reduced c2 ->
  nA (cell_params c1) <= nA (cell_params c2) /\ nB (cell_params c1) <= nB (cell_params c2) /\
  nC (cell_params c1) <= nC (cell_params c2).
Proof.
  intros D S R1 R2. destruct (same_lattice_change c1 c2 D S) as (t & U & E).
  assert (D2 : zdet t <> 0%Z) by (destruct U as [-> | ->]; discriminate).
  pose proof (red_AB _ _ R2) as AB. pose proof (red_BC _ _ R2) as BC. cbn in AB, BC.
  assert (X1 : row1 c2 = vmat (ofZv (Zv (z11 t) (z12 t) (z13 t))) c1) by (rewrite E; reflexivity).
  assert (X2 : row2 c2 = vmat (ofZv (Zv (z21 t) (z22 t) (z23 t))) c1) by (rewrite E; reflexivity).
  assert (X3 : row3 c2 = vmat (ofZv (Zv (z31 t) (z32 t) (z33 t))) c1) by (rewrite E; reflexivity).
  unfold zdet in D2. cbn. fold (len2 (row1 c1)) (len2 (row2 c1)) (len2 (row3 c1)).
  fold (len2 (row1 c2)) (len2 (row2 c2)) (len2 (row3 c2)) in *.
  destruct t as [a1 a2 a3 b1 b2 b3 d1 d2 d3]. cbn [z11 z12 z13 z21 z22 z23 z31 z32 z33] in *.
  split; [|split].
  - rewrite X1. apply min_1; auto. unfold zz3. cbn. intros (-> & -> & ->). lia.
  - assert (K : (a2 <> 0 \/ a3 <> 0)%Z \/ (b2 <> 0 \/ b3 <> 0)%Z).
    { destruct (Z.eq_dec a2 0), (Z.eq_dec a3 0), (Z.eq_dec b2 0), (Z.eq_dec b3 0); auto. subst. lia. }
    destruct K as [K | K].
    + pose proof (min_2 c1 D R1 (Zv a1 a2 a3) K) as M. rewrite <- X1 in M. lra.
    + pose proof (min_2 c1 D R1 (Zv b1 b2 b3) K) as M. rewrite <- X2 in M. lra.
  - assert (K : (a3 <> 0 \/ b3 <> 0 \/ d3 <> 0)%Z).
    { destruct (Z.eq_dec a3 0), (Z.eq_dec b3 0), (Z.eq_dec d3 0); auto. subst. lia. }
    destruct K as [K | [K | K]].
    + pose proof (min_3 c1 D R1 (Zv a1 a2 a3) K) as M. rewrite <- X1 in M. lra.
    + pose proof (min_3 c1 D R1 (Zv b1 b2 b3) K) as M. rewrite <- X2 in M. lra.
    + pose proof (min_3 c1 D R1 (Zv d1 d2 d3) K) as M. rewrite <- X3 in M. lra.
Qed.

Theorem C73_reduced_cell_unique : forall c1 c2, det c1 <> 0 -> same_lattice c1 c2 ->
  niggli_reduced c1 -> niggli_reduced c2 -> cell_params c1 = cell_params c2.
Proof.
  intros c1 c2 D S R1 R2.
  assert (S' : same_lattice c2 c1) by (intros v; symmetry; apply S).
  destruct (same_lattice_change c1 c2 D S) as (t & U & E).
  assert (D2 : det c2 <> 0).
  { rewrite E, det_mmul, ofZ_det. destruct U as [-> | ->]; lra. }
  destruct (same_lengths c1 c2 D S R1 R2) as (L1 & L2 & L3).
  destruct (same_lengths c2 c1 D2 S' R2 R1) as (L4 & L5 & L6).
  symmetry. destruct U as [U | U].
  - apply (unique_1 _ _ t); auto using cell_A_pos; try lra. rewrite E. apply F_NiggliCheck.moved_ok.
  - apply (unique_1 _ _ (zopp3 t)); auto using cell_A_pos; try lra.
    + rewrite <- F_NiggliCheck.moved_ok, ofZ_opp, params_neg, <- E. reflexivity.
    + rewrite zdet_opp, U. reflexivity.
Qed.
Print Assumptions C73_reduced_cell_unique.

(* The six numbers fix the lengths and angles, and the cell up to a rotation or reflection. *)
Lemma params_isometry c1 c2 : det c1 <> 0 -> cell_params c1 = cell_params c2 ->
  exists o, orthogonal o /\ c2 = mmul c1 o.
Proof.
  intros D E. assert (G : mmul c1 (tr c1) = mmul c2 (tr c2)).
  { unfold cell_params in E. injection E as E1 E2 E3 E4 E5 E6.
    destruct c1 as [a b c], c2 as [a' b' c']. cbn [row1 row2 row3] in *.
    assert (T : forall u v w : vec, mmul (M3 u v w) (tr (M3 u v w)) =
      mk (dot u u) (dot u v) (dot u w) (dot v u) (dot v v) (dot v w) (dot w u) (dot w v) (dot w w)).
    { intros [] [] []. reflexivity. }
    rewrite !T. rewrite (dot_comm b a), (dot_comm c a), (dot_comm c b), (dot_comm b' a'), (dot_comm c' a'), (dot_comm c' b').
    replace (dot a b) with (dot a' b') by lra. replace (dot a c) with (dot a' c') by lra.
    replace (dot b c) with (dot b' c') by lra. rewrite E1, E2, E3. reflexivity. }
  exists (mmul (minv_total c1) c2). split.
  - unfold orthogonal. rewrite tr_mmul, mmul_assoc, <- (mmul_assoc c2), <- G, tr_minv by auto.
    rewrite (mmul_assoc c1), minv_r by (rewrite det_tr; auto). rewrite mmul_id_r. apply minv_l, D.
  - rewrite <- mmul_assoc, minv_r, mmul_id_l; auto.
Qed.
Lemma params_turned c o : orthogonal o -> cell_params (mmul c o) = cell_params c.
Proof.
  intros O. unfold cell_params. cbn [mmul row1 row2 row3]. rewrite !(dot_as_vmat _ _ _ O). reflexivity.
Qed.

(* what the theorems below ask of a cell: metric entries multiples of q, tolerance below q *)
Definition well_scaled (q eps_relative : R) (cell : mat) : Prop :=
  let eps := eps_relative * Rpower (Rabs (det cell)) (1 / 3) in
  quantised q (cell_params cell) /\ default_atol < q /\ 0 <= eps < q /\ eps < q * q * q.

Lemma niggli_facts sp c q er mx d : well_scaled q er c -> get_niggli sp c er "wulfric" mx = Ok d ->
  niggli_reduced d /\ same_lattice d c /\ det c <> 0 /\ det d <> 0 /\ exists k, unimodular k /\ d = mmul (ofZ k) c.
Proof.
  intros (Q & Q8 & E1 & E3) H.
  destruct (C12_returned_cell_reduced sp c q er mx d Q Q8 E1 E3 H) as [R S].
  destruct (C11_lattice_preserved sp c er mx d H) as (_ & _ & k & U & E).
  assert (D : det c <> 0).
  { apply wulfric_ok in H. destruct H as (p & t & n & Rn & _). rewrite run_unfold in Rn.
    destruct (Reqb (Rabs (det c)) 0) eqn:Z0; [discriminate|]. apply abs_nz in Z0. exact Z0. }
  split; [exact R|]. split; [exact S|]. split; [exact D|]. split.
  - rewrite E, det_mmul, ofZ_det. destruct U as [-> | ->]; lra.
  - eauto.
Qed.
Lemma turned_lattice c1 c2 o : same_lattice c1 c2 -> same_lattice (mmul c1 o) (mmul c2 o).
Proof.
  intros S v. split; intros [n ->]; rewrite <- vmat_mmul.
  - destruct (proj1 (S (vmat (ofZv n) c1)) ltac:(exists n; reflexivity)) as [m ->]. exists m. rewrite vmat_mmul. reflexivity.
  - destruct (proj2 (S (vmat (ofZv n) c2)) ltac:(exists n; reflexivity)) as [m ->]. exists m. rewrite vmat_mmul. reflexivity.
Qed.
Lemma same_trans a b c : same_lattice a b -> same_lattice b c -> same_lattice a c.
Proof. intros H1 H2 v. rewrite (H1 v). apply H2. Qed.
Lemma same_sym a b : same_lattice a b -> same_lattice b a.
Proof. intros H v. symmetry. apply H. Qed.

(* metric entries of another cell of the lattice *)
Lemma multiple_ev q ps : Forall (multiple q) ps -> forall l, multiple q (F_NiggliCheck.ev l ps).
Proof.
  induction 1 as [|x ps [z ->] _ IH]; intros [|a l]; cbn [F_NiggliCheck.ev];
    try (exists 0%Z; lra).
  destruct (IH l) as [w ->]. exists (a * z + w)%Z. rewrite plus_IZR, mult_IZR. ring.
Qed.
Lemma quantised_list q p : quantised q p <-> Forall (multiple q) (F_NiggliCheck.plist p).
Proof.
  unfold quantised, F_NiggliCheck.plist. split.
  - intros (H1 & H2 & H3 & H4 & H5 & H6). repeat (apply Forall_cons; [assumption|]). apply Forall_nil.
  - intros H. do 6 (apply Forall_inv_tail in H as H'; apply Forall_inv in H; rename H into K, H' into H;
      revert K). intros. tauto.
Qed.
Lemma well_scaled_lattice q er c1 c2 o : orthogonal o -> det c1 <> 0 -> same_lattice (mmul c1 o) c2 ->
  well_scaled q er c1 -> well_scaled q er c2.
Proof.
  intros O D S (Q & Q8 & E1 & E3).
  assert (Do : det (mmul c1 o) <> 0).
  { rewrite det_mmul. apply Rmult_integral_contrapositive_currified; auto using orth_det. }
  destruct (same_lattice_change _ _ Do S) as (t & U & E).
  assert (DD : Rabs (det c2) = Rabs (det c1)).
  { rewrite E, !det_mmul, !Rabs_mult, ofZ_det.
    assert (A1 : Rabs (IZR (zdet t)) = 1) by (destruct U as [-> | ->]; unfold Rabs; destruct (Rcase_abs _); lra).
    assert (A2 : Rabs (det o) = 1).
    { unfold orthogonal in O. apply (f_equal det) in O. rewrite det_mmul, det_tr in O.
      assert (det mid = 1) by (vunfold; ring). rewrite H in O.
      unfold Rabs. destruct (Rcase_abs (det o)); nra. }
    rewrite A1, A2. ring. }
  unfold well_scaled. rewrite DD. split; auto.
  apply quantised_list. rewrite E, F_NiggliCheck.moved_ok, (params_turned _ _ O).
  apply Forall_map, Forall_forall. intros l _. apply multiple_ev, quantised_list, Q.
Qed.

Lemma params_of_reduced sp c q er mx d : well_scaled q er c -> get_niggli sp c er "wulfric" mx = Ok d ->
  exists p, get_params d = Ok p.
Proof.
  intros W H. destruct (niggli_facts sp c q er mx d W H) as (R & S & D & D' & k & U & E).
  assert (W' : well_scaled q er d).
  { apply (well_scaled_lattice q er c d mid); auto.
    - unfold orthogonal. vunfold. f_equal; f_equal; ring.
    - rewrite mmul_id_r. apply same_sym, S. }
  destruct W' as ((Q1 & _) & Q8 & _).
  pose proof (cell_A_pos d D') as P. destruct Q1 as [z Ez]. cbn in Ez, P.
  pose proof (red_AB _ _ R) as AB. pose proof (red_BC _ _ R) as BC. cbn in AB, BC.
  unfold default_atol in Q8.
  assert (Z1 : (1 <= z)%Z).
  { destruct (Z_lt_le_dec z 1) as [L|]; auto. exfalso. assert (L' : (z <= 0)%Z) by lia.
    apply IZR_le in L'. nra. }
  apply IZR_le in Z1. assert (B1 : / 100000000 < dot (row1 d) (row1 d)) by nra.
  assert (N : forall v, / 100000000 < dot v v -> FLOAT_EPS < norm v).
  { intros v Hv. unfold norm, FLOAT_EPS. apply Rlt_le_trans with (sqrt (/ 100000000)); [|apply sqrt_le_1_alt; lra].
    replace (/ 100000000) with ((/ 10000) * (/ 10000)) by lra. rewrite sqrt_square by lra. lra. }
  rewrite get_params_val; [eauto|]. unfold big. repeat split; apply N; lra.
Qed.

Lemma params_determine d1 d2 p : get_params d1 = Ok p -> get_params d2 = Ok p -> cell_params d1 = cell_params d2.
Proof.
  intros H1 H2. apply params_dots in H1. apply params_dots in H2.
  destruct H1 as (_ & _ & _ & G1). destruct H2 as (_ & _ & _ & G2). rewrite <- G2 in G1.
  rewrite !gram_dots in G1. injection G1. intros. unfold cell_params. congruence.
Qed.

(* get_params of the two results tells whether two cells describe one lattice, up to a rotation
   or reflection. *)
Theorem C73_lattices_compared : forall sp c1 c2 q eps_relative max_iterations d1 d2,
  well_scaled q eps_relative c1 -> well_scaled q eps_relative c2 ->
  get_niggli sp c1 eps_relative "wulfric" max_iterations = Ok d1 ->
  get_niggli sp c2 eps_relative "wulfric" max_iterations = Ok d2 ->
  exists p1 p2, get_params d1 = Ok p1 /\ get_params d2 = Ok p2 /\
  (p1 = p2 <-> exists o, orthogonal o /\ same_lattice (mmul c1 o) c2).
Proof.
  intros sp c1 c2 q er mx d1 d2 W1 W2 H1 H2.
  destruct (params_of_reduced _ _ _ _ _ _ W1 H1) as [p1 P1].
  destruct (params_of_reduced _ _ _ _ _ _ W2 H2) as [p2 P2].
  exists p1, p2. split; [auto|]. split; [auto|].
  destruct (niggli_facts _ _ _ _ _ _ W1 H1) as (R1 & S1 & D1 & D1' & _).
  destruct (niggli_facts _ _ _ _ _ _ W2 H2) as (R2 & S2 & D2 & D2' & _). split.
  - intros <-. destruct (params_isometry d1 d2 D1' (params_determine _ _ _ P1 P2)) as (o & O & E).
    exists o. split; auto. apply same_trans with d2; auto. rewrite E. apply turned_lattice, same_sym, S1.
  - intros (o & O & S).
    assert (X : cell_params (mmul d1 o) = cell_params d2).
    { apply C73_reduced_cell_unique.
      - rewrite det_mmul. apply Rmult_integral_contrapositive_currified; auto using orth_det.
      - apply same_trans with (mmul c1 o); [apply turned_lattice, S1|].
        apply same_trans with c2; auto. apply same_sym, S2.
      - unfold niggli_reduced. rewrite params_turned by auto. exact R1.
      - exact R2. }
    rewrite (params_turned d1 o O) in X. destruct (params_isometry d1 d2 D1' X) as (o' & O' & E).
    rewrite E, params_turn in P2 by auto. congruence.
Qed.
Print Assumptions C73_lattices_compared.

(* Whatever cell of the lattice is given, the result has the same lengths and angles. *)
Theorem C73_any_cell : forall sp c1 c2 o q eps_relative max_iterations d1 d2,
  orthogonal o -> same_lattice (mmul c1 o) c2 -> well_scaled q eps_relative c1 ->
  get_niggli sp c1 eps_relative "wulfric" max_iterations = Ok d1 ->
  get_niggli sp c2 eps_relative "wulfric" max_iterations = Ok d2 ->
  exists p, get_params d1 = Ok p /\ get_params d2 = Ok p.
Proof.
  intros sp c1 c2 o q er mx d1 d2 O S W1 H1 H2.
  destruct (niggli_facts _ _ _ _ _ _ W1 H1) as (_ & _ & D1 & _).
  pose proof (well_scaled_lattice q er c1 c2 o O D1 S W1) as W2.
  destruct (C73_lattices_compared sp c1 c2 q er mx d1 d2 W1 W2 H1 H2) as (p1 & p2 & P1 & P2 & I).
  exists p1. split; auto. rewrite (proj2 I); eauto.
Qed.
Print Assumptions C73_any_cell.

(* Two cells of one orthorhombic lattice: the run succeeds for both. *)
Definition brick := mk 1 0 0 0 2 0 0 0 3.
Definition slanted := mk 1 0 0 3 2 0 1 (-2) 3.
Lemma brick_scaled : well_scaled 1 (/ 100000) brick.
Proof.
  unfold well_scaled. assert (D : det brick = 6) by (unfold brick; vunfold; ring).
  assert (E : 0 < Rpower (Rabs (det brick)) (1 / 3) <= 6).
  { rewrite D, Rabs_pos_eq by lra. split; [apply exp_pos|].
    rewrite <- (Rpower_1 6) at 2 by lra. apply Rle_Rpower; lra. }
  unfold default_atol. split; [|lra].
  unfold quantised, cell_params, brick; cbn. unfold multiple, dot; cbn.
  repeat split; [exists 1%Z|exists 4%Z|exists 9%Z|exists 0%Z|exists 0%Z|exists 0%Z]; lra.
Qed.
Lemma brick_same : same_lattice brick slanted.
Proof.
  apply same_sym. replace slanted with (mmul (ofZ (Zm 1 0 0 3 1 0 1 (-1) 1)) brick).
  - apply unimodular_same_lattice. left. reflexivity.
  - unfold slanted, brick. vunfold. cbn. f_equal; f_equal; ring.
Qed.
Example C73_case : forall sp, exists d1 d2 p,
  get_niggli sp brick (/ 100000) "wulfric" 100000 = Ok d1 /\
  get_niggli sp slanted (/ 100000) "wulfric" 100000 = Ok d2 /\
  slanted <> brick /\ get_params d1 = Ok p /\ get_params d2 = Ok p.
Proof.
  intros sp. pose proof brick_scaled as W.
  assert (O : orthogonal mid) by (unfold orthogonal; vunfold; f_equal; f_equal; ring).
  assert (D : det brick <> 0) by (unfold brick; vunfold; lra).
  assert (S : same_lattice (mmul brick mid) slanted) by (rewrite mmul_id_r; exact brick_same).
  pose proof (well_scaled_lattice 1 (/ 100000) brick slanted mid O D S W) as W'.
  assert (D' : det slanted <> 0) by (unfold slanted; vunfold; lra).
  pose proof W as (W1 & W2 & W3 & W4). pose proof W' as (V1 & V2 & V3 & V4).
  destruct (C12_total_correctness sp brick 1 (/ 100000) 100000 D W1 W2 W3 W4) as (d1 & H1 & _).
  { unfold brick, dot; cbn. lra. }
  destruct (C12_total_correctness sp slanted 1 (/ 100000) 100000 D' V1 V2 V3 V4) as (d2 & H2 & _).
  { unfold slanted, dot; cbn. lra. }
  destruct (C73_any_cell sp brick slanted mid 1 (/ 100000) 100000 d1 d2 O S W H1 H2) as (p & P1 & P2).
  exists d1, d2, p. repeat split; auto. intros E. apply (f_equal (fun m => vx (row2 m))) in E. cbn in E. lra.
Qed.
Example C72_case : det brick <> 0 /\ niggli_reduced brick.
Proof.
  split; [unfold brick; vunfold; lra|]. unfold niggli_reduced.
  replace (cell_params brick) with (NP 1 4 9 0 0 0) by (unfold cell_params, brick, dot; cbn; f_equal; lra).
  constructor; cbn [nA nB nC nxi neta nzeta]; rewrite ?Rabs_R0; unfold near; try lra;
    (intros H || right); try lra; apply abs_le in H; lra.
Qed.
