(* P_Window.v : property C15, when the window of lattice points is large enough.
   Specification: in_zone of S_Zone.v - the true Wigner-Seitz cell, all lattice points counted. *)
From Verif Require Import Base M_Numerical M_Geometry M_Cell M_Niggli M_Voronoi F_Geometry F_Niggli F_Voronoi S_Niggli S_Zone F_Window P_Voronoi P_Niggli.
From Coq Require Import Lra Lia.
Open Scope R_scope.

Lemma norm_dist c w : norm c <= norm (vsub c w) <-> dist2 c vzero <= dist2 c w.
Proof.
  unfold dist2, norm. replace (vsub c vzero) with c by (destruct c; unfold vsub, vzero; cbn; f_equal; ring). split; intros H.
  - apply sqrt_le_0; auto; apply dot_self_nonneg.
  - apply sqrt_le_1_alt. auto.
Qed.
Lemma point_comb cell i j k : point cell false i j k = comb (row1 cell) (row2 cell) (row3 cell) (IZR i) (IZR j) (IZR k).
Proof. reflexivity. Qed.
Lemma vmat_comb cell n : vmat (ofZv n) cell = comb (row1 cell) (row2 cell) (row3 cell) (IZR (zx n)) (IZR (zy n)) (IZR (zz n)).
Proof. destruct n as [i j k]. unfold ofZv, comb. cbn [Base.zx Base.zy Base.zz]. vring. Qed.

(* For a basis whose vectors cannot be shortened by one another, the 26 nearest
   combinations decide: a point at least as close to the origin as to those is in the
   Wigner-Seitz cell of the whole lattice. *)
Theorem C15_reduced_neighbours : forall cell x, pairwise_reduced cell ->
  ((forall i j k, within 1 1 1 i j k -> norm x <= norm (vsub x (point cell false i j k))) <-> in_zone cell x).
Proof.
  intros cell x R. split; intros H.
  - intros n. rewrite vmat_comb. apply excess_dist. apply reduced_near; [exact R|].
    intros i j k Hi Hj Hk. apply excess_dist. rewrite <- point_comb. apply norm_dist, H. unfold within. lia.
  - intros i j k _. apply norm_dist. rewrite point_comb. pose proof (H (Zv i j k)) as Q. rewrite vmat_comb in Q. exact Q.
Qed.
Print Assumptions C15_reduced_neighbours.

(* every column of k has entries of total size at most 10 *)
Definition small_columns (k : zmat) : Prop :=
  (Z.abs (z11 k) + Z.abs (z21 k) + Z.abs (z31 k) <= 10 /\ Z.abs (z12 k) + Z.abs (z22 k) + Z.abs (z32 k) <= 10 /\
   Z.abs (z13 k) + Z.abs (z23 k) + Z.abs (z33 k) <= 10)%Z.

Lemma in_zone_same c1 c2 x : same_lattice c1 c2 -> in_zone c1 x -> in_zone c2 x.
Proof.
  intros S H n. destruct (proj2 (S (vmat (ofZv n) c2))) as [m Hm]; [exists n; reflexivity|].
  rewrite Hm. apply H.
Qed.

(* The window is large enough for every cell that is related to a reduced one by a matrix
   with small columns (in particular for a reduced cell, with k the identity): what
   get_wigner_seitz_cell returns are points of the true Wigner-Seitz cell. *)
Theorem C15_window_sufficient : forall lib cell verts edges k,
  (forall pts, valid_answer (lib pts)) -> (forall pts, voronoi_vertices pts (lib pts)) ->
  unimodular k -> pairwise_reduced (mmul (ofZ k) cell) -> small_columns k ->
  get_wigner_seitz_cell (Some lib) cell = Ok (verts, edges) ->
  forall c, In c verts -> in_zone cell c.
Proof.
  intros lib cell verts edges k Hv Hs U R (K1 & K2 & K3) H c Hc.
  apply (in_zone_same (mmul (ofZ k) cell)); [apply unimodular_same_lattice; auto|].
  apply C15_reduced_neighbours; [exact R|]. intros i j l (I & J & L).
  pose proof (C15_vertices_nearest_origin lib cell verts edges Hv Hs H c Hc
    (i * z11 k + j * z21 k + l * z31 k) (i * z12 k + j * z22 k + l * z32 k) (i * z13 k + j * z23 k + l * z33 k))%Z as Q.
  replace (point (mmul (ofZ k) cell) false i j l) with
    (point cell false (i * z11 k + j * z21 k + l * z31 k) (i * z12 k + j * z22 k + l * z32 k) (i * z13 k + j * z23 k + l * z33 k)).
  - apply Q. unfold within.
    assert (B : forall x y : Z, (-1 <= x <= 1)%Z -> (- Z.abs y <= x * y <= Z.abs y)%Z) by (intros; assert (x = -1 \/ x = 0 \/ x = 1)%Z as [->|[->| ->]] by lia; lia).
    pose proof (B i (z11 k) I); pose proof (B j (z21 k) J); pose proof (B l (z31 k) L).
    pose proof (B i (z12 k) I); pose proof (B j (z22 k) J); pose proof (B l (z32 k) L).
    pose proof (B i (z13 k) I); pose proof (B j (z23 k) J); pose proof (B l (z33 k) L). lia.
  - rewrite !point_comb, !plus_IZR, !mult_IZR. destruct k. unfold comb, ofZ. vring.
Qed.
Print Assumptions C15_window_sufficient.

Lemma niggli_pairwise cell : niggli_reduced cell -> pairwise_reduced cell.
Proof.
  intros [AB BC _ _ _ XI ETA ZETA _ _ _ _ _ _ _ _]. cbn in *. unfold pairwise_reduced, pair_reduced.
  rewrite !Rabs_mult, !(Rabs_right 2) in * by lra. repeat split; lra.
Qed.
Lemma zid_facts cell : unimodular zid /\ small_columns zid /\ mmul (ofZ zid) cell = cell.
Proof. split; [left; reflexivity|]. split; [repeat split; cbn; lia|apply mmul_id_l]. Qed.

(* For the cell that get_niggli returns the window is always large enough, and the points
   are in the Wigner-Seitz cell of the lattice of the original cell. *)
Theorem C15_niggli_window : forall lib sp cell q eps_relative max_iterations cell' verts edges,
  (forall pts, valid_answer (lib pts)) -> (forall pts, voronoi_vertices pts (lib pts)) ->
  let eps := eps_relative * Rpower (Rabs (det cell)) (1 / 3) in
  quantised q (cell_params cell) -> default_atol < q -> 0 <= eps < q -> eps < q * q * q ->
  get_niggli sp cell eps_relative "wulfric" max_iterations = Ok cell' ->
  get_wigner_seitz_cell (Some lib) cell' = Ok (verts, edges) ->
  forall c, In c verts -> in_zone cell' c /\ in_zone cell c.
Proof.
  intros lib sp cell q e mx cell' verts edges Hv Hs eps Q A B C N W c Hc.
  destruct (C12_returned_cell_reduced sp cell q e mx cell' Q A B C N) as [R S].
  destruct (zid_facts cell') as (U & K & E).
  assert (Z : in_zone cell' c).
  { apply (C15_window_sufficient lib cell' verts edges zid); auto. rewrite E. apply niggli_pairwise. auto. }
  split; [exact Z|]. eapply in_zone_same; eauto.
Qed.
Print Assumptions C15_niggli_window.

(* The same for the Brillouin zone, in terms of the reciprocal cell. *)
Theorem C15_brillouin_window : forall lib cell r verts edges k,
  (forall pts, valid_answer (lib pts)) -> (forall pts, voronoi_vertices pts (lib pts)) ->
  mmul r (tr cell) = mscale (2 * PI) mid (* dual basis *) ->
  unimodular k -> pairwise_reduced (mmul (ofZ k) r) -> small_columns k ->
  get_brillouin_zone (Some lib) cell = Ok (verts, edges) ->
  forall c, In c verts -> in_zone r c.
Proof.
  intros lib cell r verts edges k Hv Hs D U R K H.
  assert (E : get_reciprocal cell = Ok r).
  { apply reciprocal_unique; auto. intros Z. unfold get_brillouin_zone in H. rewrite get_reciprocal_err in H by auto. discriminate. }
  unfold get_brillouin_zone in H. rewrite E in H. cbn [bind] in H.
  eapply C15_window_sufficient; eauto.
Qed.
Print Assumptions C15_brillouin_window.

(* Non-vacuity: the simple cubic lattice.  A library that answers with the cube for the
   window of this lattice (and with nothing otherwise) meets the hypotheses, and the
   result is the cube with 8 vertices and 12 edges. *)
Definition vec_eq_dec (u v : vec) : {u = v} + {u <> v}.
Proof.
  destruct u as [a b c], v as [x y z]. destruct (Req_EM_T a x), (Req_EM_T b y), (Req_EM_T c z); [left; congruence|right; congruence..].
Defined.
Definition cube_answer : voronoi :=
  Vor [V3 (-1/2) (-1/2) (-1/2); V3 (-1/2) (-1/2) (1/2); V3 (-1/2) (1/2) (-1/2); V3 (-1/2) (1/2) (1/2);
       V3 (1/2) (-1/2) (-1/2); V3 (1/2) (-1/2) (1/2); V3 (1/2) (1/2) (-1/2); V3 (1/2) (1/2) (1/2)]
      [[0; 1; 3; 2]; [4; 5; 7; 6]; [0; 1; 5; 4]; [2; 3; 7; 6]; [0; 2; 6; 4]; [1; 3; 7; 5]]%Z
      [(4189, 4630); (4630, 5071); (4609, 4630); (4630, 4651); (4629, 4630); (4630, 4631)]%Z.
Definition cubic_window : list vec := flat (mk 1 0 0  0 1 0  0 0 1) 10 10 10 false.
Definition cube_lib (pts : list vec) : voronoi := if list_eq_dec vec_eq_dec pts cubic_window then cube_answer else Vor [] [] [].

Lemma cube_zone x : In x (vor_vertices cube_answer) -> in_zone (mk 1 0 0  0 1 0  0 0 1) x.
Proof.
  intros H [i j k]. rewrite vmat_comb. apply excess_dist.
  assert (S : forall z : Z, 0 <= IZR z * IZR z - IZR z /\ 0 <= IZR z * IZR z + IZR z).
  { intros z. rewrite <- mult_IZR, <- minus_IZR, <- plus_IZR. split; apply IZR_le; nia. }
  destruct (S i), (S j), (S k). cbn in H.
  repeat destruct H as [<-|H]; try destruct H; unfold excess, comb, dot, vadd, vscale; cbn -[IZR]; lra.
Qed.
Lemma cube_lib_ok : (forall pts, valid_answer (cube_lib pts)) /\ (forall pts, voronoi_vertices pts (cube_lib pts)).
Proof.
  split; intros pts; unfold cube_lib; destruct (list_eq_dec vec_eq_dec pts cubic_window) as [->|N]; [|intros rv x []| |intros [|m] rv p q x H; discriminate].
  - intros rv x H Hx. right. cbn [cube_answer ridge_vertices] in H. cbn [length vor_vertices cube_answer].
    repeat destruct H as [<-|H]; try destruct H; cbn in Hx; cbn; intuition lia.
  - intros m rv p q x E1 E2 Hx _ c V. pose proof (pts10 (mk 1 0 0 0 1 0 0 0 1)) as E. fold cubic_window in E.
    destruct (C14_exact_enumeration (mk 1 0 0 0 1 0 0 0 1) false 10 10 10) as (pts & E' & _ & K & K2); try lia.
    rewrite E in E'. injection E' as <-.
    assert (Z : in_zone (mk 1 0 0 0 1 0 0 0 1) c) by (apply cube_zone; eapply nth_error_In; exact V).
    assert (M : forall w, In w cubic_window -> norm c <= norm (vsub c w)).
    { intros w Hw. apply In_nth_error in Hw. destruct Hw as [n Hn]. destruct (K2 n w Hn) as (i & j & k & _ & _ & ->).
      apply norm_dist. rewrite point_comb. pose proof (Z (Zv i j k)) as Q. rewrite vmat_comb in Q. exact Q. }
    assert (C0 : vsub c vzero = c) by (destruct c; unfold vsub, vzero; cbn; f_equal; ring).
    assert (P : forall i j k, within 10 10 10 i j k -> nth_error cubic_window (rank 10 10 10 i j k) = Some (V3 (IZR i) (IZR j) (IZR k))).
    { intros i j k W. rewrite K by auto. f_equal. unfold point. vring. }
    assert (Q : exists i j k i' j' k', within 10 10 10 i j k /\ within 10 10 10 i' j' k' /\ (0 <= p)%Z /\ (0 <= q)%Z /\
      Z.to_nat p = rank 10 10 10 i j k /\ Z.to_nat q = rank 10 10 10 i' j' k' /\
      norm (vsub c (V3 (IZR i) (IZR j) (IZR k))) = norm (vsub c (V3 (IZR i') (IZR j') (IZR k'))) /\
      norm (vsub c (V3 (IZR i) (IZR j) (IZR k))) = norm c).
    { clear - E1 E2 Hx V. unfold vertex in V.
      do 6 (destruct m as [|m]; [cbn in E1, E2; injection E1 as <-; injection E2 as <- <-;
        first [exists (-1)%Z, 0%Z, 0%Z, 0%Z, 0%Z, 0%Z; split; [unfold within; lia|split; [unfold within; lia|split; [lia|split; [lia|split; [reflexivity|split; [reflexivity|]]]]]]
              |exists 0%Z, 0%Z, 0%Z, 1%Z, 0%Z, 0%Z; split; [unfold within; lia|split; [unfold within; lia|split; [lia|split; [lia|split; [reflexivity|split; [reflexivity|]]]]]]
              |exists 0%Z, (-1)%Z, 0%Z, 0%Z, 0%Z, 0%Z; split; [unfold within; lia|split; [unfold within; lia|split; [lia|split; [lia|split; [reflexivity|split; [reflexivity|]]]]]]
              |exists 0%Z, 0%Z, 0%Z, 0%Z, 1%Z, 0%Z; split; [unfold within; lia|split; [unfold within; lia|split; [lia|split; [lia|split; [reflexivity|split; [reflexivity|]]]]]]
              |exists 0%Z, 0%Z, (-1)%Z, 0%Z, 0%Z, 0%Z; split; [unfold within; lia|split; [unfold within; lia|split; [lia|split; [lia|split; [reflexivity|split; [reflexivity|]]]]]]
              |exists 0%Z, 0%Z, 0%Z, 0%Z, 0%Z, 1%Z; split; [unfold within; lia|split; [unfold within; lia|split; [lia|split; [lia|split; [reflexivity|split; [reflexivity|]]]]]]];
        cbn in Hx; repeat destruct Hx as [<-|Hx]; try destruct Hx; cbn in V; injection V as <-;
        unfold norm; split; f_equal; unfold vsub, dot; cbn -[IZR]; lra|]).
      destruct m; discriminate. }
    destruct Q as (i & j & k & i' & j' & k' & W & W' & Hp & Hq & Rp & Rq & N1 & N2).
    split; [exact Hp|]. split; [exact Hq|]. exists (V3 (IZR i) (IZR j) (IZR k)), (V3 (IZR i') (IZR j') (IZR k')).
    rewrite Rp, Rq. split; [auto|]. split; [auto|]. split; [exact N1|]. rewrite N2. exact M.
Qed.
Example C15_window_nonvacuous :
  (forall pts, valid_answer (cube_lib pts)) /\ (forall pts, voronoi_vertices pts (cube_lib pts)) /\
  unimodular zid /\ pairwise_reduced (mmul (ofZ zid) (mk 1 0 0  0 1 0  0 0 1)) /\ small_columns zid /\
  get_wigner_seitz_cell (Some cube_lib) (mk 1 0 0  0 1 0  0 0 1) =
  Ok (vor_vertices cube_answer, [(2, 0); (0, 1); (1, 3); (3, 2); (6, 4); (4, 5); (5, 7); (7, 6); (4, 0); (1, 5); (6, 2); (3, 7)]%nat).
Proof.
  destruct cube_lib_ok as [A B]. split; [exact A|]. split; [exact B|].
  destruct (zid_facts (mk 1 0 0 0 1 0 0 0 1)) as (U & K & E). split; [exact U|]. split; [|split; [exact K|]].
  - rewrite E. unfold pairwise_reduced, pair_reduced. vunfold.
    repeat rewrite ?Rmult_0_l, ?Rmult_0_r, ?Rplus_0_l, ?Rplus_0_r. rewrite Rabs_R0. repeat split; lra.
  - unfold get_wigner_seitz_cell, get_voronoi_cell. rewrite pts10. cbn [bind]. unfold cube_lib. fold cubic_window.
    destruct (list_eq_dec vec_eq_dec cubic_window cubic_window) as [_|N]; [reflexivity|congruence].
Qed.
