(* P_Voronoi.v : properties C14 and C15 *)
From Verif Require Import Base M_Geometry M_Cell M_Voronoi F_Geometry F_Voronoi.
Open Scope Z_scope.

(* ---------------- specification ---------------- *)
(* a triple within the requested range *)
Definition within (r1 r2 r3 i j k : Z) : Prop := - r1 <= i <= r1 /\ - r2 <= j <= r2 /\ - r3 <= k <= r3.
(* its rank in the lexicographic order *)
Definition rank (r1 r2 r3 i j k : Z) : nat :=
  Z.to_nat (((i + r1) * (2 * r2 + 1) + (j + r2)) * (2 * r3 + 1) + (k + r3)).
(* the expected point *)
Definition point (cell : mat) (relative : bool) (i j k : Z) : vec :=
  if relative then V3 (IZR i) (IZR j) (IZR k)
  else vadd (vscale (IZR i) (row1 cell)) (vadd (vscale (IZR j) (row2 cell)) (vscale (IZR k) (row3 cell))).

Lemma to_out_point cell rel i j k : to_out cell rel (Zv i j k) = point cell rel i j k.
Proof. destruct rel; cbn; [reflexivity|]. unfold point, ofZv; cbn [Base.zx Base.zy Base.zz]. vring. Qed.

(* ---------------- C14 ---------------- *)
(* The k-th element of the flat output is the k-th triple in lexicographic order,
   and there are no further elements. *)
Theorem C14_exact_enumeration : forall cell relative r1 r2 r3,
  0 <= r1 -> 0 <= r2 -> 0 <= r3 ->
  exists pts, get_lattice_points cell r1 r2 r3 relative = Ok pts /\
    Z.of_nat (length pts) = (2 * r1 + 1) * (2 * r2 + 1) * (2 * r3 + 1) /\
    (forall i j k, within r1 r2 r3 i j k ->
       nth_error pts (rank r1 r2 r3 i j k) = Some (point cell relative i j k)) /\
    (forall n p, nth_error pts n = Some p ->
       exists i j k, within r1 r2 r3 i j k /\ n = rank r1 r2 r3 i j k /\ p = point cell relative i j k).
Proof.
  intros cell rel r1 r2 r3 H1 H2 H3. exists (flat cell r1 r2 r3 rel).
  assert (L : Z.of_nat (length (flat cell r1 r2 r3 rel)) = (2 * r1 + 1) * (2 * r2 + 1) * (2 * r3 + 1)).
  { rewrite flat_length by auto. rewrite !Nat2Z.inj_mul, !Z2Nat.id by lia. reflexivity. }
  assert (K : forall i j k, within r1 r2 r3 i j k ->
     nth_error (flat cell r1 r2 r3 rel) (rank r1 r2 r3 i j k) = Some (point cell rel i j k)).
  { intros i j k (A & B & C). rewrite <- to_out_point.
    apply (flat_nth cell r1 r2 r3 rel H1 H2 H3 (Zv i j k)); auto. }
  split; [apply flat_ok; auto|]. split; [exact L|]. split; [exact K|].
  intros n p E. assert (Hn : (n < length (flat cell r1 r2 r3 rel))%nat) by (apply nth_error_Some; congruence).
  destruct (pos_surj r1 r2 r3 (Z.of_nat n)) as ([i j k] & W & P); try lia.
  cbn [Base.zx Base.zy Base.zz] in W. unfold pos_of in P; cbn [Base.zx Base.zy Base.zz] in P.
  assert (En : n = rank r1 r2 r3 i j k) by (unfold rank; rewrite P; lia).
  exists i, j, k. split; [exact W|]. split; [exact En|]. rewrite En, K in E by exact W. congruence.
Qed.
Print Assumptions C14_exact_enumeration.

(* each point once *)
Theorem C14_no_repetition : forall cell relative r1 r2 r3 pts,
  0 <= r1 -> 0 <= r2 -> 0 <= r3 -> (relative = true \/ det cell <> 0%R) ->
  get_lattice_points cell r1 r2 r3 relative = Ok pts -> NoDup pts.
Proof.
  intros cell rel r1 r2 r3 pts H1 H2 H3 Hd E.
  destruct (C14_exact_enumeration cell rel r1 r2 r3 H1 H2 H3) as (pts' & E' & _ & _ & K).
  rewrite E in E'. injection E' as <-. apply NoDup_nth_error. intros n m Hn Enm.
  destruct (nth_error pts n) as [p|] eqn:En; [|apply nth_error_None in En; lia].
  destruct (K n p En) as (i & j & k & _ & -> & Ep).
  destruct (K m p (eq_sym Enm)) as (i' & j' & k' & _ & -> & Ep').
  assert (Eo : V3 (IZR i) (IZR j) (IZR k) = V3 (IZR i') (IZR j') (IZR k')).
  { rewrite Ep in Ep'. destruct rel; [exact Ep'|].
    assert (D : det cell <> 0%R) by (destruct Hd; [discriminate|auto]).
    assert (Q : vmat (V3 (IZR i) (IZR j) (IZR k)) cell = vmat (V3 (IZR i') (IZR j') (IZR k')) cell).
    { rewrite <- !(to_out_point cell false) in Ep'. exact Ep'. }
    exact (vmat_cancel _ _ _ D Q). }
  injection Eo as A B C. apply eq_IZR in A, B, C. congruence.
Qed.
Print Assumptions C14_no_repetition.

(* point reflection reverses the list; the middle element is the origin *)
Theorem C14_inversion : forall cell relative r1 r2 r3 pts,
  0 <= r1 -> 0 <= r2 -> 0 <= r3 -> get_lattice_points cell r1 r2 r3 relative = Ok pts ->
  forall n p, nth_error pts n = Some p -> nth_error pts (length pts - 1 - n) = Some (vneg p).
Proof.
  intros cell rel r1 r2 r3 pts H1 H2 H3 E n p En.
  destruct (C14_exact_enumeration cell rel r1 r2 r3 H1 H2 H3) as (pts' & E' & L & K1 & K2).
  rewrite E in E'. injection E' as <-. destruct (K2 n p En) as (i & j & k & W & Hn & ->).
  assert (W' : within r1 r2 r3 (- i) (- j) (- k)) by (unfold within in *; lia).
  pose proof (K1 _ _ _ W') as Q.
  replace (length pts - 1 - n)%nat with (rank r1 r2 r3 (- i) (- j) (- k)).
  - rewrite Q. f_equal. unfold point. rewrite !opp_IZR. destruct rel; vring.
  - unfold rank in *. apply Nat2Z.inj. unfold within in *.
    rewrite !Nat2Z.inj_sub, L by (try lia; apply Nat2Z.inj_le; rewrite Nat2Z.inj_sub, L by nia;
      rewrite Hn, Z2Nat.id by nia; nia).
    rewrite Hn, !Z2Nat.id by nia. nia.
Qed.
Print Assumptions C14_inversion.

Theorem C14_centre_is_origin : forall cell relative r1 r2 r3 pts,
  0 <= r1 -> 0 <= r2 -> 0 <= r3 -> get_lattice_points cell r1 r2 r3 relative = Ok pts ->
  nth_error pts ((length pts - 1) / 2) = Some vzero.
Proof.
  intros cell rel r1 r2 r3 pts H1 H2 H3 E.
  destruct (C14_exact_enumeration cell rel r1 r2 r3 H1 H2 H3) as (pts' & E' & L & K1 & _).
  rewrite E in E'. injection E' as <-.
  assert (W : within r1 r2 r3 0 0 0) by (unfold within; lia).
  specialize (K1 _ _ _ W). replace ((length pts - 1) / 2)%nat with (rank r1 r2 r3 0 0 0).
  - rewrite K1. f_equal. unfold point. destruct rel; vring.
  - unfold rank. apply Nat2Z.inj. rewrite Nat2Z.inj_div, Nat2Z.inj_sub, L, Z2Nat.id by nia.
    apply Z.div_unique with (r := 0); [lia|]. cbn [Z.of_nat]. nia.
Qed.
Print Assumptions C14_centre_is_origin.

(* absolute output = relative output @ cell, element by element *)
Theorem C14_absolute_is_relative_times_cell : forall cell r1 r2 r3 rel_pts abs_pts,
  get_lattice_points cell r1 r2 r3 true = Ok rel_pts ->
  get_lattice_points cell r1 r2 r3 false = Ok abs_pts ->
  abs_pts = map (fun v => vmat v cell) rel_pts.
Proof.
  intros cell r1 r2 r3 p q E1 E2. unfold get_lattice_points in *.
  destruct (_ || _) in E1; [|discriminate]. destruct (_ || _) in E2; [|discriminate].
  injection E1 as <-. injection E2 as <-.
  unfold get_lattice_points_grid. rewrite <- !concat_map, !map_map. f_equal.
Qed.
Print Assumptions C14_absolute_is_relative_times_cell.

(* flat=False: three-level indexing gives the same points *)
Theorem C14_grid_indexing : forall cell relative r1 r2 r3 i j k,
  0 <= r1 -> 0 <= r2 -> 0 <= r3 -> within r1 r2 r3 i j k ->
  let g := get_lattice_points_grid cell r1 r2 r3 relative in
  Z.of_nat (length g) = 2 * r1 + 1 /\
  exists p q, nth_error g (Z.to_nat (i + r1)) = Some p /\ Z.of_nat (length p) = 2 * r2 + 1 /\
    nth_error p (Z.to_nat (j + r2)) = Some q /\ Z.of_nat (length q) = 2 * r3 + 1 /\
    nth_error q (Z.to_nat (k + r3)) = Some (point cell relative i j k).
Proof.
  intros cell rel r1 r2 r3 i j k H1 H2 H3 (A & B & C) g. unfold g, get_lattice_points_grid, grid.
  rewrite !map_length, arange_length, Z2Nat.id by lia. split; [reflexivity|].
  exists (map (map (to_out cell rel)) (map (fun j => map (fun k => Zv i j k) (arange (- r3) (r3 + 1))) (arange (- r2) (r2 + 1)))).
  exists (map (to_out cell rel) (map (fun k => Zv i j k) (arange (- r3) (r3 + 1)))).
  rewrite !map_length, !arange_length, !Z2Nat.id by lia. rewrite !map_map.
  rewrite (map_nth_error _ _ _ (arange_nth r1 i A)), (map_nth_error _ _ _ (arange_nth r2 j B)),
    (map_nth_error _ _ _ (arange_nth r3 k C)), to_out_point. repeat split; rewrite ?map_map; reflexivity.
Qed.
Print Assumptions C14_grid_indexing.

Example C14_nonvacuous :
  get_lattice_points (mk 2 0 0  0 3 0  0 0 5) 0 1 0 true = Ok [V3 0 (-1) 0; V3 0 0 0; V3 0 1 0].
Proof. reflexivity. Qed.

(* ---------------- C15 ---------------- *)
Open Scope nat_scope.
(* position of the lattice point (0,0,0) among the points handed to the Voronoi library *)
Definition origin_index : Z := 4630.

(* Two vertices x, y (as numbered by the library) follow each other around the m-th
   ridge; the ridge is bounded and separates the origin from another lattice point. *)
Definition wall_edge (v : voronoi) (x y : Z) : Prop :=
  exists m rv p q, nth_error (ridge_vertices v) m = Some rv /\ nth_error (ridge_points v) m = Some (p, q) /\
    ~ In (-1)%Z rv /\ (p = origin_index \/ q = origin_index) /\ consecutive rv x y.

(* every finite vertex number is a valid index *)
Definition valid_answer (v : voronoi) : Prop :=
  forall rv x, In rv (ridge_vertices v) -> In x rv -> x = (-1)%Z \/ (0 <= x < Z.of_nat (length (vor_vertices v)))%Z.

Definition vertex (v : voronoi) (x : Z) (p : vec) : Prop := nth_error (vor_vertices v) (Z.to_nat x) = Some p.

Lemma ridge_edge_wall v x y :
  ridge_edge index_000 (combine (ridge_vertices v) (ridge_points v)) (x, y) <-> wall_edge v x y.
Proof.
  unfold ridge_edge, wall_edge. split.
  - intros (rv & [p q] & H & N & O & C). apply In_nth_error in H. destruct H as [m H].
    apply combine_nth_error in H. destruct H. exists m, rv, p, q. rewrite <- cyclic_pairs_spec. auto.
  - intros (m & rv & p & q & E1 & E2 & N & O & C). exists rv, (p, q).
    rewrite cyclic_pairs_spec. split; [|auto]. apply nth_error_In with (n := m). apply combine_nth_error; auto.
Qed.

Lemma pts10 cell : get_lattice_points cell 10 10 10 false = Ok (flat cell 10 10 10 false).
Proof. apply flat_ok; lia. Qed.

(* The point with number [origin_index] in the library's input is the origin. *)
Theorem C15_origin_index : forall cell pts,
  get_lattice_points cell 10 10 10 false = Ok pts ->
  nth_error pts (Z.to_nat origin_index) = Some vzero /\ index_000 = origin_index.
Proof.
  intros cell pts E. split; [|reflexivity].
  destruct (C14_exact_enumeration cell false 10 10 10) as (p & E' & _ & K & _); try lia.
  rewrite E in E'. injection E' as <-.
  specialize (K 0%Z 0%Z 0%Z ltac:(unfold within; lia)).
  replace (Z.to_nat origin_index) with (rank 10 10 10 0 0 0) by reflexivity.
  rewrite K. f_equal. unfold point. vring.
Qed.
Print Assumptions C15_origin_index.

Lemma consecutive_in rv x y : consecutive rv x y -> In x rv /\ In y rv.
Proof. intros (k & _ & A & B). split; eapply nth_error_In; eauto. Qed.
Lemma wall_edge_valid v x y : valid_answer v -> wall_edge v x y ->
  (0 <= x < Z.of_nat (length (vor_vertices v)))%Z /\ (0 <= y < Z.of_nat (length (vor_vertices v)))%Z.
Proof.
  intros V (m & rv & p & q & E1 & _ & N & _ & C). apply consecutive_in in C. destruct C as [A B].
  apply nth_error_In in E1. split.
  - destruct (V rv x E1 A); [congruence|auto].
  - destruct (V rv y E1 B); [congruence|auto].
Qed.

(* The graph is well formed, sound and complete. *)
Theorem C15_voronoi_graph : forall lib cell verts edges,
  (forall pts, valid_answer (lib pts)) ->
  get_wigner_seitz_cell (Some lib) cell = Ok (verts, edges) ->
  exists pts v, get_lattice_points cell 10 10 10 false = Ok pts /\ v = lib pts /\
    (* edges refer to existing vertices *)
    (forall i j, In (i, j) edges -> i < length verts /\ j < length verts) /\
    (* no edge twice, no edge reversed *)
    NoDup edges /\ (forall i j, In (i, j) edges -> In (j, i) edges -> i = j) /\
    (* every vertex is used *)
    (forall i, i < length verts -> exists j, In (i, j) edges \/ In (j, i) edges) /\
    (* every edge is a wall edge, every wall edge is an edge *)
    exists ids, NoDup ids /\ Forall2 (vertex v) ids verts /\
      (forall i j, In (i, j) edges -> exists x y, nth_error ids i = Some x /\ nth_error ids j = Some y /\ wall_edge v x y) /\
      (forall x y, wall_edge v x y -> exists i j, nth_error ids i = Some x /\ nth_error ids j = Some y /\
                                                 (In (i, j) edges \/ In (j, i) edges)).
Proof.
  intros lib cell verts edges Hv H. unfold get_wigner_seitz_cell, get_voronoi_cell in H.
  rewrite pts10 in H. cbn [bind] in H. set (pts := flat cell 10 10 10 false) in *.
  set (v := lib pts) in *. set (es := collect _ _ _) in H.
  destruct (collect_spec index_000 (combine (ridge_vertices v) (ridge_points v)) []) as (S & C1 & C2 & _).
  { split; [constructor|intros e []]. }
  fold es in S, C1, C2. destruct (finish_ok v es verts edges S H) as (ids & ND & IU & FV & FE).
  assert (C1' : forall x y, In (x, y) es -> wall_edge v x y).
  { intros x y He. destruct (C1 _ He) as [[]|W]. apply ridge_edge_wall in W. exact W. }
  assert (Inj : forall i j x, nth_error ids i = Some x -> nth_error ids j = Some x -> i = j).
  { intros i j x Ei Ej. eapply (proj1 (NoDup_nth_error ids) ND); [apply nth_error_Some; congruence|congruence]. }
  assert (EE : forall i j, In (i, j) edges -> exists x y, In (x, y) es /\ nth_error ids i = Some x /\ nth_error ids j = Some y).
  { intros i j He. apply In_nth_error in He. destruct He as [n He].
    destruct (Forall2_nth_r _ _ _ FE _ _ He) as ([x y] & Q & A & B). apply nth_error_In in Q. eauto. }
  assert (EE' : forall x y, In (x, y) es -> exists i j, In (i, j) edges /\ nth_error ids i = Some x /\ nth_error ids j = Some y).
  { intros x y He. apply In_nth_error in He. destruct He as [n He].
    destruct (Forall2_nth_l _ _ _ FE _ _ He) as ([i j] & Q & A & B). apply nth_error_In in Q. eauto. }
  assert (LV : length ids = length verts) by (eapply Forall2_len; eauto).
  exists pts, v. split; [reflexivity|]. split; [reflexivity|].
  split; [|split; [|split; [|split]]].
  - intros i j He. destruct (EE _ _ He) as (x & y & _ & A & B). rewrite <- LV.
    split; apply nth_error_Some; congruence.
  - apply NoDup_nth_error. intros n m Hn Enm.
    destruct (nth_error edges n) as [[i j]|] eqn:En; [|apply nth_error_None in En; lia].
    destruct (Forall2_nth_r _ _ _ FE _ _ En) as ([x y] & Q & A & B).
    destruct (Forall2_nth_r _ _ _ FE _ _ (eq_sym Enm)) as ([x' y'] & Q' & A' & B').
    cbn in *. rewrite A in A'. rewrite B in B'. injection A' as <-. injection B' as <-.
    eapply (proj1 (NoDup_nth_error es) (proj1 S)); [apply nth_error_Some; congruence|congruence].
  - intros i j H1 H2. destruct (EE _ _ H1) as (x & y & P & A & B). destruct (EE _ _ H2) as (y' & x' & P' & A' & B').
    rewrite A in B'. rewrite B in A'. injection A' as <-. injection B' as <-.
    pose proof (proj2 S _ P P') as Q. unfold swap in Q; cbn in Q. injection Q as E1 E2. subst. eapply Inj; eauto.
  - intros i Hi. rewrite <- LV in Hi. destruct (nth_error ids i) as [x|] eqn:Ex; [|apply nth_error_None in Ex; lia].
    assert (Hx : In x ids) by (eapply nth_error_In; eauto). apply IU in Hx.
    destruct Hx as (y & [He|He]); destruct (EE' _ _ He) as (a & b & Hab & A & B).
    + rewrite (Inj i a x) by auto. eauto.
    + rewrite (Inj i b x) by auto. eauto.
  - exists ids. split; [auto|]. split; [|split].
    + assert (FV2 : forall x, In x ids -> (0 <= x)%Z).
      { intros x Hx. apply IU in Hx. destruct Hx as (y & [He|He]); apply C1' in He;
          apply (wall_edge_valid v) in He; try (apply Hv); lia. }
      clear - FV FV2. induction FV; constructor.
      * apply (proj1 (np_index_nonneg _ _ _ (FV2 _ (or_introl eq_refl)))). exact H.
      * apply IHFV. intros; apply FV2; cbn; auto.
    + intros i j He. destruct (EE _ _ He) as (x & y & P & A & B). exists x, y. auto.
    + intros x y W. apply ridge_edge_wall in W. destruct (C2 (x, y) (or_intror W)) as [P|P].
      * destruct (EE' _ _ P) as (i & j & Hij & A & B). exists i, j. auto.
      * destruct (EE' _ _ P) as (i & j & Hij & A & B). exists j, i. auto.
Qed.
Print Assumptions C15_voronoi_graph.

(* It succeeds exactly when there is a wall edge at all. *)
Theorem C15_succeeds : forall lib cell,
  (forall pts, valid_answer (lib pts)) ->
  forall pts, get_lattice_points cell 10 10 10 false = Ok pts ->
  (exists x y, wall_edge (lib pts) x y) -> exists out, get_wigner_seitz_cell (Some lib) cell = Ok out.
Proof.
  intros lib cell Hv pts E (x & y & W). unfold get_wigner_seitz_cell, get_voronoi_cell. rewrite E. cbn [bind].
  destruct (collect_spec index_000 (combine (ridge_vertices (lib pts)) (ridge_points (lib pts))) []) as (S & C1 & C2 & _).
  { split; [constructor|intros e []]. }
  apply finish_total.
  - intros F. rewrite F in C2. apply ridge_edge_wall in W. destruct (C2 (x, y)) as [[]|[]]; auto.
  - intros a b He. destruct (C1 _ He) as [[]|Q]. apply ridge_edge_wall in Q.
    destruct (wall_edge_valid _ _ _ (Hv pts) Q) as [A B]. split.
    + destruct (nth_error (vor_vertices (lib pts)) (Z.to_nat a)) as [p|] eqn:Ep;
        [exists p; apply np_index_nonneg; [lia|auto]|apply nth_error_None in Ep; lia].
    + destruct (nth_error (vor_vertices (lib pts)) (Z.to_nat b)) as [p|] eqn:Ep;
        [exists p; apply np_index_nonneg; [lia|auto]|apply nth_error_None in Ep; lia].
Qed.
Print Assumptions C15_succeeds.

Theorem C15_no_wall_raises : forall lib cell pts,
  get_lattice_points cell 10 10 10 false = Ok pts ->
  (forall x y, ~ wall_edge (lib pts) x y) -> get_wigner_seitz_cell (Some lib) cell = Err IndexError.
Proof.
  intros lib cell pts E W. unfold get_wigner_seitz_cell, get_voronoi_cell. rewrite E. cbn [bind].
  destruct (collect_spec index_000 (combine (ridge_vertices (lib pts)) (ridge_points (lib pts))) []) as (S & C1 & _).
  { split; [constructor|intros e []]. }
  destruct (collect _ _ _) as [|[a b] l]; [reflexivity|]. exfalso.
  destruct (C1 (a, b)) as [[]|Q]; [left; auto|]. apply ridge_edge_wall in Q. eapply W; eauto.
Qed.
Print Assumptions C15_no_wall_raises.

Theorem C15_scipy_missing : forall cell,
  get_wigner_seitz_cell None cell = Err ImportError /\
  (det cell <> 0%R -> get_brillouin_zone None cell = Err ImportError).
Proof.
  intros cell. split; [reflexivity|]. intros D. unfold get_brillouin_zone.
  rewrite get_reciprocal_ok by auto. reflexivity.
Qed.
Print Assumptions C15_scipy_missing.

(* The Brillouin zone is the Wigner-Seitz cell of the dual lattice. *)
Theorem C15_brillouin_zone : forall lib cell, det cell <> 0%R ->
  exists r, mmul r (tr cell) = mscale (2 * PI)%R mid (* dual basis *) /\
    get_brillouin_zone lib cell = get_wigner_seitz_cell lib r.
Proof.
  intros lib cell D. pose proof (get_reciprocal_ok cell D) as E. eexists. split.
  - apply reciprocal_dual. exact E.
  - unfold get_brillouin_zone. rewrite E. reflexivity.
Qed.
Print Assumptions C15_brillouin_zone.

(* What the returned vertices mean: if every vertex the library reports for a ridge is
   equidistant from the two ridge points and no input point is closer (the definition of
   a Voronoi vertex), then each returned vertex is at least as close to the origin as to
   any of the 21^3 lattice points considered. *)
Definition voronoi_vertices (pts : list vec) (v : voronoi) : Prop :=
  forall m rv p q x, nth_error (ridge_vertices v) m = Some rv -> nth_error (ridge_points v) m = Some (p, q) ->
    In x rv -> x <> (-1)%Z -> forall c, vertex v x c ->
    (0 <= p)%Z /\ (0 <= q)%Z /\
    exists a b, nth_error pts (Z.to_nat p) = Some a /\ nth_error pts (Z.to_nat q) = Some b /\
      norm (vsub c a) = norm (vsub c b) /\ forall w, In w pts -> (norm (vsub c a) <= norm (vsub c w))%R.

Theorem C15_vertices_nearest_origin : forall lib cell verts edges,
  (forall pts, valid_answer (lib pts)) -> (forall pts, voronoi_vertices pts (lib pts)) ->
  get_wigner_seitz_cell (Some lib) cell = Ok (verts, edges) ->
  forall c, In c verts -> forall i j k, within 10 10 10 i j k ->
  (norm c <= norm (vsub c (point cell false i j k)))%R.
Proof.
  intros lib cell verts edges Hv Hs H c Hc i j k W.
  destruct (C15_voronoi_graph lib cell verts edges Hv H) as (pts & v & E & Ev & _ & _ & _ & U & ids & ND & FV & S & _).
  apply In_nth_error in Hc. destruct Hc as [n Hn].
  destruct (Forall2_nth_r _ _ _ FV _ _ Hn) as (x & Hx & Vx).
  assert (L : n < length verts) by (apply nth_error_Some; congruence).
  assert (Q : exists y, wall_edge v x y \/ wall_edge v y x).
  { destruct (U n L) as (m & [He|He]); destruct (S _ _ He) as (a & b & A & B & We).
    - rewrite Hx in A. injection A as <-. eauto.
    - rewrite Hx in B. injection B as <-. eauto. }
  assert (R0 : exists m rv p q, nth_error (ridge_vertices v) m = Some rv /\ nth_error (ridge_points v) m = Some (p, q) /\
     ~ In (-1)%Z rv /\ (p = origin_index \/ q = origin_index) /\ In x rv).
  { destruct Q as (y & [Q|Q]); destruct Q as (m & rv & p & q & E1 & E2 & N & O & C);
      apply consecutive_in in C; exists m, rv, p, q; tauto. }
  destruct R0 as (m & rv & p & q & E1 & E2 & N & O & Hin).
  assert (x <> (-1)%Z) by (intros ->; auto). subst v.
  destruct (Hs pts m rv p q x E1 E2 Hin H0 c Vx) as (_ & _ & a & b & Ea & Eb & Eq & Hmin).
  destruct (C15_origin_index cell pts E) as [Eo _].
  assert (Zero : norm c = norm (vsub c a)).
  { assert (X : vsub c vzero = c) by (destruct c; vring). destruct O as [->| ->].
    - rewrite Eo in Ea. injection Ea as <-. rewrite X; auto.
    - rewrite Eo in Eb. injection Eb as <-. rewrite Eq, X; auto. }
  rewrite Zero. apply Hmin.
  destruct (C14_exact_enumeration cell false 10 10 10) as (p' & E' & _ & K & _); try lia.
  rewrite E in E'. injection E' as <-. eapply nth_error_In. apply K. exact W.
Qed.
Print Assumptions C15_vertices_nearest_origin.

(* Non-vacuity: a library answer with one square wall between the origin and its
   neighbour (0, 0, 1) = point number 4631 of the simple cubic lattice; the eight
   directions are all represented in the general statement. *)
Definition square_answer : voronoi :=
  Vor [V3 (1/2) (1/2) (1/2); V3 7 7 7; V3 (1/2) (-1/2) (1/2); V3 (-1/2) (-1/2) (1/2); V3 (-1/2) (1/2) (1/2)]
      [[0; 2; 3; 4]; [1; -1; 0]; [1; 2; 0]]%Z [(4630, 4631); (4630, 12); (17, 18)]%Z.
Example C15_nonvacuous :
  (forall pts : list vec, valid_answer ((fun _ => square_answer) pts)) /\
  get_wigner_seitz_cell (Some (fun _ => square_answer)) (mk 1 0 0  0 1 0  0 0 1) =
  Ok ([V3 (1/2) (1/2) (1/2); V3 (1/2) (-1/2) (1/2); V3 (-1/2) (-1/2) (1/2); V3 (-1/2) (1/2) (1/2)],
      [(3, 0); (0, 1); (1, 2); (2, 3)]).
Proof.
  split.
  - intros _ rv x [<-|[<-|[<-|[]]]] H; cbn in H; cbn -[Z.lt Z.le]; intuition lia.
  - unfold get_wigner_seitz_cell, get_voronoi_cell. rewrite pts10. reflexivity.
Qed.

(* The 21^3 window is not always enough (the comment in the code admits it): for this
   skewed basis of the simple cubic lattice the point c is equidistant from the origin
   and three independent lattice points and no point of the window is closer, so it is
   a vertex of the computed cell; yet the lattice point (0, 1, 0) is closer to c than
   the origin, so c is outside the Wigner-Seitz cell. *)
Definition skew_cell := mk 1 0 0  100 1 0  0 0 1.
Definition far_vertex := V3 (1/2) (8011/2) (1/2).
Theorem C15_window_sufficient_refuted :
  det skew_cell = 1%R /\
  (forall i j k, within 10 10 10 i j k ->
     (norm far_vertex <= norm (vsub far_vertex (point skew_cell false i j k)))%R) /\
  norm (vsub far_vertex (point skew_cell false 1 0 0)) = norm far_vertex /\
  norm (vsub far_vertex (point skew_cell false 0 0 1)) = norm far_vertex /\
  norm (vsub far_vertex (point skew_cell false (-10) 1 0)) = norm far_vertex /\
  exists i j k, (norm (vsub far_vertex (point skew_cell false i j k)) < norm far_vertex)%R.
Proof.
  split; [unfold skew_cell; vunfold; lra|]. split; [|split; [|split; [|split]]].
  - intros i j k (A & B & C). unfold norm. apply sqrt_le_1_alt.
    assert (Q : ((i + 100 * j) + 8011 * j + k <= (i + 100 * j) * (i + 100 * j) + j * j + k * k)%Z).
    { assert (k <= k * k)%Z by nia. set (m := (i + 100 * j)%Z).
      assert (j <= -1 \/ j = 0 \/ 1 <= j)%Z as [J|[J|J]] by lia.
      - assert (m <= m * m)%Z by (destruct (Z_le_gt_dec m 0); nia). nia.
      - assert (m <= m * m)%Z by (destruct (Z_le_gt_dec m 0); nia). nia.
      - assert (100 * j - 10 <= m)%Z by (unfold m; lia).
        assert ((100 * j - 10) * (100 * j - 11) <= m * (m - 1))%Z by (apply Z.mul_le_mono_nonneg; lia).
        nia. }
    apply IZR_le in Q. rewrite !plus_IZR, !mult_IZR, !plus_IZR, !mult_IZR in Q.
    unfold point, far_vertex, skew_cell. vunfold. nra.
  - unfold norm; f_equal; unfold point, far_vertex, skew_cell; vunfold; field.
  - unfold norm; f_equal; unfold point, far_vertex, skew_cell; vunfold; field.
  - unfold norm; f_equal; unfold point, far_vertex, skew_cell; vunfold; field.
  - exists (-100)%Z, 1%Z, 0%Z. unfold norm. apply sqrt_lt_1_alt.
    unfold point, far_vertex, skew_cell; vunfold; lra.
Qed.
Print Assumptions C15_window_sufficient_refuted.
