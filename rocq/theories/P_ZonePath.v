(* P_ZonePath.v : property C67 (the k-points generated along the recommended path stay in the first Brillouin zone). *)
From Verif Require Import Base M_Strings M_Dict M_Numerical M_Geometry M_Cell M_Niggli M_Atoms T_Tables T_Points M_Spglib M_Conventional
  M_Primitive M_Variation M_Kpoints M_Path F_Geometry F_Voronoi F_Strings F_Atoms F_Kpoints S_Crystal F_Conventional F_Primitive
  P_Conventional P_Primitive P_Kpoints P_Path S_Zone F_Zone P_Zone P_Variation.
Open Scope string_scope.
Open Scope list_scope.
Open Scope R_scope.

(* calls that change the path or the density only: the setters of path and n *)
Definition redraws (o : op) : Prop := match o with SetPath _ | SetN _ => True | _ => False end.

(* ---------- the zone is convex ---------- *)
Lemma zone_linear r k : in_zone r k <-> forall n : zvec, 2 * dot k (vmat (ofZv n) r) <= dot (vmat (ofZv n) r) (vmat (ofZv n) r).
Proof.
  assert (X : forall g, dist2 k g = dist2 k vzero - 2 * dot k g + dot g g) by (intros g; unfold dist2; destruct k, g; vunfold; ring).
  split; intros H n; specialize (H n); rewrite (X (vmat (ofZv n) r)) in *; lra.
Qed.
Lemma zone_segment r a b t : in_zone r a -> in_zone r b -> 0 <= t <= 1 -> in_zone r (vadd a (vscale t (vsub b a))).
Proof.
  rewrite !zone_linear. intros A B T n. specialize (A n). specialize (B n). revert A B. generalize (vmat (ofZv n) r). intros g A B.
  replace (dot (vadd a (vscale t (vsub b a))) g) with ((1 - t) * dot a g + t * dot b g) by (destruct a, b, g; vunfold; ring).
  revert A B. generalize (dot a g), (dot b g), (dot g g). intros x y z A B. nra.
Qed.

(* ---------- the object made from a crystal ---------- *)
Lemma crystal_reachable spglib cell atoms cv trev n arg k : from_crystal spglib cell atoms cv trev n arg = Ok k -> reachable k.
Proof.
  unfold from_crystal. intros H. apply bind_ok in H. destruct H as ([path pts] & P & H). apply bind_ok in H. destruct H as (ls & _ & H).
  apply bind_ok in H. destruct H as (rc & _ & H). exists []. exists rc, (map snd pts), (Some (keys pts)), (Some ls), (Some (PathStr path)), n, k.
  split; [exact H|]. split; [|split; [constructor|reflexivity]]. intros ns E. injection E as <-.
  destruct (C42_path_points_defined _ _ _ _ _ _ _ _ _ P) as (l & _ & _ & _ & ND & _). exact ND.
Qed.
Lemma redraw_keeps ops : Forall redraws ops -> forall k, k_coords (run k ops) = k_coords k /\ k_rcell (run k ops) = k_rcell k /\ k_names (run k ops) = k_names k.
Proof.
  induction 1 as [|o ops R _ IH]; intros k; [auto|]. unfold run. cbn [fold_left]. fold (run (fst (step k o)) ops).
  destruct (IH (fst (step k o))) as (-> & -> & ->). destruct k as [rc ns cs ls p m sh]. destruct o; try contradiction; cbn [step].
  - destruct (check_path ns cs p0); auto.
  - destruct n; auto.
Qed.
Lemma run_reachable k ops : reachable k -> Forall redraws ops -> reachable (run k ops).
Proof.
  intros (ops0 & rc & cs & ns & ls & p & n & k0 & E & ND & F & ->) R. exists (ops0 ++ ops). exists rc, cs, ns, ls, p, n, k0.
  split; [exact E|]. split; [exact ND|]. split; [|unfold run; rewrite fold_left_app; reflexivity].
  apply Forall_app. split; [exact F|]. eapply Forall_impl; [|exact R]. intros [] X; try contradiction; reflexivity.
Qed.

(* Every k-point of the object made from a crystal, with the recommended path or any other drawn through
   recommended points that are in the zone, at any density, is in the first Brillouin zone of the
   primitive cell. *)
Theorem C67_path_in_zone : forall spglib cell atoms arg cv exempt trev n ops k0 pc pa r,
  points_in_zone spglib cell atoms arg cv exempt ->
  from_crystal spglib cell atoms cv trev n arg = Ok k0 -> Forall redraws ops ->
  get_primitive spglib cell atoms cv arg = Ok (pc, pa) -> get_reciprocal pc = Ok r ->
  let k := run k0 ops in
  (0 <= k_n k)%Z ->
  (forall s, In s (concat (k_path k)) -> ~ In s (exempt ++ map (fun s => String.append s "_P") exempt)) ->
  forall ps, points k false = Ok (Some ps) -> Forall (in_zone r) ps.
Proof.
  intros spglib cell atoms arg cv exempt trev n ops k0 pc pa r Z K R GP RC k N X ps E.
  assert (R0 := crystal_reachable _ _ _ _ _ _ _ _ K). assert (RK := run_reachable _ _ R0 R). fold k in RK.
  destruct (redraw_keeps _ R k0) as (KC & KR & KN). fold k in KC, KR, KN.
  assert (C := reachable_consistent k RK). assert (PK : path_known k) by (eapply must_be_known; eauto).
  destruct (k_path k) as [|sp p0] eqn:KP; [unfold points in E; rewrite KP in E; discriminate|]. rewrite <- KP in X.
  assert (NE : k_path k <> []) by (rewrite KP; discriminate).
  destruct (points_eq k false C PK N NE) as (_ & _ & Q & _). rewrite Q in E. assert (EP : ps = concat (map (F_Kpoints.lin (Xof (k_coords k)) (basis k false) (k_n k)) (segments (k_path k)))) by congruence.
  subst ps. clear Q E.
  assert (IZ : forall s, In s (concat (k_path k)) -> in_zone r (Y (Xof (k_coords k)) (basis k false) s)).
  { intros s S. unfold Y, basis. pose proof (PK _ S) as IN.
    unfold from_crystal in K. apply bind_ok in K. destruct K as ([path pts] & P & K).
    destruct (C42_from_crystal _ _ _ _ _ _ n _ _ P) as (k1 & K1 & N1 & C1 & _ & R1 & _).
    assert (k1 = k0). { unfold from_crystal in K1. rewrite P in K1. cbn [bind] in K, K1. congruence. } subst k1.
    destruct (C53_relative_coordinates _ _ _ _ _ _ _ _ P) as (rc & pts' & RR & P' & KE & AB).
    rewrite KN, N1 in IN. apply lookup_in in IN. destruct IN as (v & L). specialize (AB _ _ L).
    unfold Xof. rewrite KC, C1, L, KR. assert (rc = k_rcell k0) by congruence. subst rc.
    apply lookup_pair in AB. destruct (Z _ _ _ _ _ _ P' GP RC s _ AB (X s S)) as [HZ _]. exact HZ. }
  apply Forall_forall. intros q I. apply in_concat in I. destruct I as (row & I & J). apply in_map_iff in I. destruct I as ([a b] & <- & I).
  destruct (segment_names _ _ I) as [IA IB]. cbn [fst snd] in IA, IB. unfold F_Kpoints.lin in J. apply in_map_iff in J. destruct J as (i & <- & J). cbn [fst snd].
  apply zone_segment; [apply IZ; auto|apply IZ; auto|]. apply in_seq in J. unfold W in J.
  assert (B : (0 <= Z.of_nat i <= k_n k + 1)%Z) by lia. rewrite INR_IZR_INZ, <- plus_IZR. destruct B as [B1 B2]. apply IZR_le in B1, B2, N.
  rewrite plus_IZR in *. split; [apply Rmult_le_pos; [lra|]; apply Rlt_le, Rinv_0_lt_compat; lra|].
  apply (Rmult_le_reg_r (IZR (k_n k) + 1)); [lra|]. unfold Rdiv. rewrite Rmult_assoc, Rinv_l by lra. lra.
Qed.
Print Assumptions C67_path_in_zone.

(* The shapes of conventional cells for which nothing else has to be assumed. *)
Definition plain_shape (d : spglib_data) (cc : mat) : Prop :=
  crystal_family d = "c" /\ In (centring_type d) ["P"; "F"; "I"] /\ cubic cc \/
  crystal_family d = "t" /\ In (centring_type d) ["P"; "I"] /\ tetragonal cc \/
  crystal_family d = "o" /\ In (centring_type d) ["P"; "I"; "C"; "A"] /\ right_angles cc \/
  crystal_family d = "h" /\ centring_type d = "P" /\ hexagonal cc.
Lemma plain_zone spglib cell atoms arg cv d cc ca : obtain_data spglib cell atoms arg = Ok d -> In (lower cv) ["hpkot"; "sc"] ->
  get_conventional spglib cell atoms cv arg = Ok (cc, ca) -> 0 <= symprec d -> plain_shape d cc -> points_in_zone spglib cell atoms arg cv [].
Proof.
  intros D L GC SP [(F & C & H)|[(F & C & H)|[(F & C & H)|(F & C & H)]]]; destruct L as [L|[L|[]]]; symmetry in L.
  - eapply C55_hpkot_cubic; eauto.
  - eapply C55_sc_cubic; eauto.
  - eapply C55_hpkot_tetragonal; eauto.
  - eapply C55_sc_tetragonal; eauto.
  - eapply C55_hpkot_orthorhombic; eauto; [cbn in *; tauto|]. intros E. rewrite E in C. cbn in C. intuition discriminate.
  - eapply C55_sc_orthorhombic; eauto; [cbn in *; tauto|]. intros V. exfalso.
    assert (LT : exists s, mem (lattice_type d) ["tI"; "oF"; "hR"; "mC"; "aP"] = false /\ lookup (lattice_type d) SC_BRAVAIS_LATTICE_SHORT_NAMES = Some s /\ s <> "ORCF3").
    { unfold lattice_type. rewrite F. destruct C as [<-|[<-|[<-|[<-|[]]]]]; eexists; (split; [reflexivity|]); (split; [reflexivity|discriminate]). }
    destruct LT as (s & M & LK & N). pose proof (single_variation _ _ _ _ _ _ _ D M LK V). congruence.
  - eapply C55_hpkot_hexagonal; eauto.
  - eapply C55_sc_hexagonal; eauto.
Qed.
Lemma path_nonempty path l : get_path_as_list path = Ok l -> l <> [].
Proof.
  unfold get_path_as_list. intros H -> . pose proof (split_nonempty "|"%char path) as N. destruct (split "|" path) as [|x r]; [contradiction|].
  cbn [collect_subpaths] in H. cbv zeta in H. pose proof (split_nonempty "-"%char x) as N'. destruct (Nat.eqb_spec (length (split "-" x)) 1) as [|N1]; [discriminate|].
  apply bind_ok in H. destruct H as (r' & _ & H). destruct (split "-" x) as [|y [|z w]]; [contradiction|cbn in N1; congruence|cbn in H; discriminate].
Qed.
Theorem C67_recommended_path : forall spglib cell atoms arg cv d cc ca trev n k,
  obtain_data spglib cell atoms arg = Ok d -> In (lower cv) ["hpkot"; "sc"] ->
  get_conventional spglib cell atoms cv arg = Ok (cc, ca) -> 0 <= symprec d -> plain_shape d cc ->
  from_crystal spglib cell atoms cv trev n arg = Ok k -> (0 <= n)%Z ->
  exists pc pa r ps, get_primitive spglib cell atoms cv arg = Ok (pc, pa) /\ get_reciprocal pc = Ok r /\
    points k false = Ok (Some ps) /\ Forall (in_zone r) ps /\ length ps = (length (segments (k_path k)) * Z.to_nat (n + 2))%nat.
Proof.
  intros spglib cell atoms arg cv d cc ca trev n k D L GC SP SH K N.
  pose proof K as K'. unfold from_crystal in K'. apply bind_ok in K'. destruct K' as ([path pts] & P & _).
  destruct (path_inv _ _ _ _ _ _ _ _ _ P) as (d' & pts0 & path0 & pc & pa & r & pts1 & inv & D' & _ & _ & GP & R & _).
  assert (d' = d) by congruence. subst d'. rewrite <- (primitive_again _ _ _ _ _ _ D) in GP. exists pc, pa, r.
  destruct (C42_from_crystal _ _ _ _ _ _ n _ _ P) as (k1 & K1 & N1 & _ & N2 & _ & GL & _). assert (k1 = k) by congruence. subst k1.
  destruct (C42_path_points_defined _ _ _ _ _ _ _ _ _ P) as (l & L1 & IL & _). assert (l = k_path k) by congruence. subst l.
  assert (RK := crystal_reachable _ _ _ _ _ _ _ _ K). assert (C := reachable_consistent k RK).
  assert (PK : path_known k) by (unfold path_known; rewrite N1; exact IL).
  assert (NE : k_path k <> []) by (eapply path_nonempty; eauto).
  destruct (points_eq k false C PK ltac:(rewrite N2; exact N) NE) as (_ & _ & Q & _). eexists. split; [exact GP|]. split; [exact R|]. split; [exact Q|]. split.
  - apply (C67_path_in_zone spglib cell atoms arg cv [] trev n [] k pc pa r); auto; [eapply plain_zone; eauto|cbn [run fold_left]; rewrite N2; exact N].
  - rewrite <- N2. generalize (segments (k_path k)). intros segs. induction segs as [|x segs IH]; cbn [map concat length Nat.mul]; auto.
    rewrite app_length, IH. unfold F_Kpoints.lin, W. rewrite map_length, seq_length. reflexivity.
Qed.
Print Assumptions C67_recommended_path.

(* ================= C55, rhombohedral crystals and the HPKOT convention ================= *)
(* The points above are in the zone of the cell that get_primitive returns, which is 3/2 times too long (C37).  In the
   zone of the crystal itself - the hexagonal cell with the centring translation (2/3, 1/3, 1/3) - every point is at 2/3 of
   where it should be: no point but GAMMA is on the surface. *)
Lemma reciprocal_inv c r : get_reciprocal c = Ok r -> det c <> 0 /\ r = mscale (2 * PI) (tr (minv_total c)).
Proof.
  intros R. destruct (Req_dec (det c) 0) as [E|N]; [rewrite (get_reciprocal_err _ E) in R; discriminate|].
  rewrite (get_reciprocal_ok _ N) in R. split; congruence.
Qed.
Lemma scale_zone r r' k : r' = mscale (3 / 2) r -> (in_zone r' (vscale (3 / 2) k) <-> in_zone r k).
Proof.
  intros ->. rewrite !zone_linear.
  assert (X : forall n, vmat (ofZv n) (mscale (3 / 2) r) = vscale (3 / 2) (vmat (ofZv n) r)) by (intros n; generalize (ofZv n); intros v; vring).
  assert (Y : forall a b, dot (vscale (3 / 2) a) (vscale (3 / 2) b) = 9 / 4 * dot a b) by (intros [] []; vunfold; field).
  split; intros H n; specialize (H n); rewrite X, !Y in *; lra.
Qed.
Theorem C55_hpkot_hR_inside : forall spglib cell atoms arg cv d cc ca trev path pts r,
  obtain_data spglib cell atoms arg = Ok d -> lower cv = "hpkot" -> crystal_family d = "h" -> centring_type d = "R" ->
  get_conventional spglib cell atoms cv arg = Ok (cc, ca) -> hexagonal cc ->
  get_path_and_points spglib cell atoms arg cv trev false = Ok (path, pts) ->
  get_reciprocal (mmul obverse cc) = Ok r ->
  forall name k, In (name, k) pts ->
    in_zone r k /\ ~ on_surface r k /\ in_zone r (vscale (3 / 2) k) /\ (name <> "GAMMA" -> on_surface r (vscale (3 / 2) k)).
Proof.
  intros spglib cell atoms arg cv d cc ca trev path pts r D L F C GC H P R name k I.
  destruct (path_inv _ _ _ _ _ _ _ _ _ P) as (d' & pts0 & path0 & pc & pa & r' & pts1 & inv & D' & _ & _ & GP & R' & _).
  assert (d' = d) by congruence. subst d'. rewrite <- (primitive_again _ _ _ _ _ _ D) in GP.
  assert (LI : In (lower cv) ["hpkot"; "sc"]) by (rewrite L; cbn; auto).
  destruct (get_primitive_inv _ _ _ _ _ _ _ _ D LI GP) as (cc0 & ca0 & m & v & cps & qs & tv & ps & ts & CC & M & PC & _).
  assert (CV : In (lower cv) ["sc"; "hpkot"]) by (rewrite L; cbn; auto).
  assert (cc0 = cc).
  { rewrite conventional_lower in GC by auto. unfold get_conventional in GC, CC. rewrite D in GC. rewrite (obtain_again _ _ _ _ _ D) in CC. congruence. }
  subst cc0. matrix_of M L F C.
  assert (E : r = mscale (3 / 2) r').
  { subst pc. destruct (reciprocal_inv _ _ R) as (DR & ->). destruct (reciprocal_inv _ _ R') as (DR' & ->). clear R R' GP.
    assert (Q : mmul (tr (mk 1 (-1/2) (-1/2) (1/2) (1/2) (-1) (1/2) (1/2) (1/2))) cc = mscale (3 / 2) (mmul obverse cc)).
    { clear. unfold obverse, mk. destruct cc as [[] [] []]. vunfold. f_equal; f_equal; field. }
    rewrite Q in *. revert DR DR'. generalize (mmul obverse cc). intros c0 DR DR'.
    assert (IV : minv_total (mscale (3 / 2) c0) = mscale (2 / 3) (minv_total c0)).
    { rewrite <- (mmul_id_r (minv_total (mscale (3 / 2) c0))), <- (minv_r c0 DR).
      assert (Z : mmul c0 (minv_total c0) = mmul (mscale (3 / 2) c0) (mscale (2 / 3) (minv_total c0))) by (generalize (minv_total c0); intros; vfield).
      rewrite Z, <- mmul_assoc, minv_l, mmul_id_l by auto. reflexivity. }
    rewrite IV. generalize (minv_total c0), PI. intros; vfield. }
  pose proof (C55_hpkot_rhombohedral _ _ _ _ _ _ _ _ D L F C GC H _ _ _ _ _ _ P GP R' name k I ltac:(intros [])) as (Z & S).
  pose proof (proj2 (scale_zone r' r k E) Z) as Z1.
  assert (GG : forall n, 3 * dot k (vmat (ofZv n) r) <= dot (vmat (ofZv n) r) (vmat (ofZv n) r)).
  { intros n. pose proof (proj1 (zone_linear _ _) Z1 n) as W. revert W. generalize (vmat (ofZv n) r). intros g W.
    replace (dot (vscale (3 / 2) k) g) with (3 / 2 * dot k g) in W by (destruct k, g; vunfold; ring). lra. }
  assert (NN := dot_self_nonneg).
  assert (X : forall k g, dist2 k g = dist2 k vzero - 2 * dot k g + dot g g) by (intros k0 g; unfold dist2; destruct k0, g; vunfold; ring).
  split; [apply zone_linear; intros n; specialize (GG n); specialize (NN (vmat (ofZv n) r)); lra|].
  split; [|split; [exact Z1|]].
  - intros (_ & n & N0 & EQ). rewrite (X k (vmat (ofZv n) r)) in EQ. specialize (GG n). pose proof (NN (vmat (ofZv n) r)).
    assert (Q : dot (vmat (ofZv n) r) (vmat (ofZv n) r) = 0) by lra. apply dot_self_zero in Q.
    destruct (reciprocal_inv _ _ R) as (DR & _). assert (DD : det r <> 0).
    { pose proof (reciprocal_det _ _ R) as RD. intros W. rewrite W, Rmult_0_l in RD. pose proof PI_RGT_0 as PP.
      assert (PI * (PI * PI) > 0) by (apply Rmult_gt_0_compat; [exact PP|apply Rmult_gt_0_compat; exact PP]). lra. }
    assert (ZV : ofZv n = vzero).
    { apply (vmat_cancel r); [exact DD|]. rewrite Q. clear. vring. }
    apply N0. destruct n as [x y z]. cbv [ofZv vzero Base.zx Base.zy Base.zz] in ZV. injection ZV as E1 E2 E3. f_equal; apply eq_IZR; auto.
  - intros NG. destruct (S NG) as (_ & n & N0 & EQ). split; [exact Z1|]. exists n. split; [exact N0|].
    rewrite (X (vscale (3 / 2) k) (vmat (ofZv n) r)). rewrite (X k (vmat (ofZv n) r')) in EQ. subst r.
    replace (vmat (ofZv n) (mscale (3 / 2) r')) with (vscale (3 / 2) (vmat (ofZv n) r')) by (generalize (ofZv n); clear; intros; vring).
    revert EQ. generalize (vmat (ofZv n) r'). intros g EQ.
    replace (dot (vscale (3 / 2) k) (vscale (3 / 2) g)) with (9 / 4 * dot k g) by (destruct k, g; vunfold; field).
    replace (dot (vscale (3 / 2) g) (vscale (3 / 2) g)) with (9 / 4 * dot g g) by (destruct g; vunfold; field). lra.
Qed.
Print Assumptions C55_hpkot_hR_inside.

(* ---------- cases ---------- *)
From Verif Require Import P_Monoclinic F_Crystals F_ZoneCells P_Symbol P_ZoneCases.

(* A rhombohedral crystal (hexagonal cell 2, 2, 7) that get_path_and_points accepts *)
Example C55_hpkot_hR_case : let c := mk 2 0 0 (-1) (sqrt 3) 0 0 0 7 in
  exists d cell r pts, processed cell d "HPKOT" c r pts /\ crystal_family d = "h" /\ centring_type d = "R" /\ hexagonal c /\
    (exists r0, get_reciprocal (mmul obverse c) = Ok r0) /\ length pts = 20%nat.
Proof.
  intros c. assert (S3 : sqrt 3 * sqrt 3 = 3) by (apply sqrt_sqrt; lra). assert (P3 : 0 < sqrt 3) by (apply sqrt_lt_R0; lra).
  assert (D : det c <> 0) by (unfold c, mk; vunfold; lra).
  assert (B : big c) by (unfold c, mk; apply big_M3; repeat split; apply norm_big; unfold dot; cbn [Base.vx Base.vy Base.vz]; lra).
  destruct (C37_hpkot_hR_accepted c D) as (O & _ & prim & new & GP & V). set (cell := mmul obverse c) in *. set (d := rhombohedral_data c) in *.
  assert (DP : det prim <> 0) by (rewrite V; cbn [d rhombohedral_data conventional_cell]; lra).
  assert (G : exists ca, get_conventional None cell one_atom "HPKOT" (Data d) = Ok (c, ca)).
  { unfold get_conventional. rewrite O. cbn [bind].
    change (conventional_structure (lib_niggli None) d "HPKOT") with (Ok (c, conventional_positions d, conventional_types d)). cbn [bind].
    change (make_atoms (last_index (original_types d) 0) (conventional_positions d) (conventional_types d) one_atom) with
      (Ok [("positions", pos_val (conventional_positions d)); ("names", PList [PStr "Fe1"; PStr "Fe1"; PStr "Fe1"]);
           ("spglib_types", PList [PNpInt 1; PNpInt 1; PNpInt 1])]). cbn [bind]. eauto. }
  destruct G as (ca & G).
  assert (HP : hpkot_params None cell one_atom d c (params_val c)) by (split; [exists ca; exact G|apply get_params_val, B]).
  assert (HX : hexagonal c).
  { unfold hexagonal, norm, c, mk. cbn [row1 row2 row3]. unfold dot. cbn [Base.vx Base.vy Base.vz]. repeat split; try lra. f_equal. lra. }
  assert (S : hpkot_get_extended_bl_symbol None cell one_atom (Data d) = Ok "hR1").
  { apply (C40_rhombohedral None cell one_atom (Data d) d c (params_val c) O eq_refl eq_refl HP).
    cbn [params_val pa pc]. rewrite !norm_sqr. unfold c, mk. cbn [row1 row2 row3]. unfold dot. cbn [Base.vx Base.vy Base.vz]. lra. }
  exists d, cell, (rec_of prim). 
  assert (T : exists pts0, hpkot_get_points c (lattice_type d) "hR1" = Ok pts0 /\ length pts0 = 20%nat).
  { unfold hpkot_get_points. rewrite (get_params_val _ B). cbn [bind]. cbv zeta. cbn [mem existsb String.eqb Ascii.eqb Bool.eqb orb].
    unfold hpkot_table_85. destruct (big_pos c B) as (_ & _ & PC). cbn [params_val pc].
    destruct (Reqb_spec (norm (row3 c)) 0); [lra|]. eexists. split; [reflexivity|reflexivity]. }
  destruct T as (pts0 & T & LN). eexists. split; [|split; [reflexivity|split; [reflexivity|split; [exact HX|split; [eexists; apply get_reciprocal_ok; unfold cell, obverse; rewrite det_mmul; intros Z; apply Rmult_integral in Z; destruct Z as [Z|Z]; [revert Z; unfold mk; vunfold; lra|contradiction]|]]]]].
  - split; [exact O|]. split; [eauto|]. split; [exists prim, new; split; [exact GP|apply get_reciprocal_ok, DP]|].
    eexists. unfold get_path_and_points. rewrite O. cbn [bind]. rewrite G. cbn [bind]. rewrite GP. cbn [bind]. cbv zeta.
    change (String.eqb (lower "HPKOT") "sc") with false. change (String.eqb (lower "HPKOT") "hpkot") with true. cbv iota.
    rewrite S. cbn [bind]. rewrite T. cbn [bind].
    change (getitem "hR1" HPKOT_DEFAULT_K_PATHS) with (Ok "GAMMA-T-H2|H0-L-GAMMA-S0|S2-F-GAMMA"). cbn [bind].
    rewrite (get_reciprocal_ok _ DP). cbn [bind]. unfold place_points. cbn [bind].
    change (zgetitem (space_group_number d) INVERSION_SYMMETRY) with (Ok true). cbn [bind negb andb]. reflexivity.
  - rewrite map_length. exact LN.
Qed.
(* A face-centred cubic crystal: Kpoints.from_crystal makes the object, and the k-points along the path are generated. *)
Example C67_case : let c := mk 2 0 0 0 2 0 0 0 2 in
  exists d cell ca k, obtain_data None cell one_atom (Data d) = Ok d /\ get_conventional None cell one_atom "HPKOT" (Data d) = Ok (c, ca) /\
    plain_shape d c /\ 0 <= symprec d /\ from_crystal None cell one_atom "HPKOT" true 100 (Data d) = Ok k /\ k_path k = [["GAMMA"; "X"; "U"]; ["K"; "GAMMA"; "L"; "W"; "X"]].
Proof.
  intros c. set (zs := [Zv 0 0 0; Zv 1 0 0; Zv 0 1 0; Zv 0 0 1]). set (d := crystal_data 225%Z "c" "F" t_F c zs). set (cell := mmul (tr t_F) c).
  assert (B : big c) by (unfold c; apply big_diag; lra).
  assert (SY : hpkot_get_extended_bl_symbol None cell one_atom (Data d) = Ok "cF2").
  { apply (C40_by_space_group None cell one_atom (Data d) d (crystal_obtain 225 "c" "F" t_F c zs None)); [right; left; reflexivity|]. unfold in_range. cbn. lia. }
  assert (PR : exists pts0, hpkot_get_points c "cF" "cF2" = Ok pts0 /\ processed cell d "HPKOT" c (rec_of cell) (map (fun kv => (fst kv, vmat (snd kv) (rec_of cell))) pts0)).
  { eexists. split; [unfold hpkot_get_points; rewrite (get_params_val _ B); reflexivity|].
    eapply (hpkot_crystal 225 "c" "F" c _ t_F "cF2"); [discriminate|reflexivity|unfold c; det_num|det_num|discriminate|unfold zs; count_points|number| |exact B| |reflexivity].
    + intros _. exact SY.
    + unfold hpkot_get_points. rewrite (get_params_val _ B). reflexivity. }
  destruct PR as (pts0 & T & O & (ca & G) & (prim & pa & GP & R) & (path & P)).
  assert (DC : det cell <> 0) by (unfold cell, c; det_num).
  destruct (C53_relative_possible _ _ _ _ _ _ _ _ P DC) as (pts & P').
  destruct (C42_from_crystal _ _ _ _ _ _ 100%Z _ _ P') as (k & K & _ & _ & _ & _ & GL & _).
  exists d, cell, ca, k. split; [exact O|]. split; [exact G|]. split.
  { left. split; [reflexivity|]. split; [right; left; reflexivity|].
    destruct (norm_diag 2 2 2) as (_ & _ & _ & N1 & N2 & N3 & RA); try lra. unfold cubic, tetragonal, c. rewrite N1, N2, N3. auto. }
  split; [unfold d, crystal_data; cbn [symprec]; lra|]. split; [exact K|].
  assert (E : path = "GAMMA-X-U|K-GAMMA-L-W-X").
  { destruct (path_inv _ _ _ _ _ _ _ _ _ P) as (d' & q & path0 & pc & pa' & r & pts1 & inv & D' & TB & _ & _ & _ & _ & _ & E & _).
    assert (d' = d) by congruence. subst d'. rewrite andb_false_r in E. destruct E as (-> & _).
    unfold table_of in TB. change (String.eqb (lower "HPKOT") "sc") with false in TB. cbv iota in TB. rewrite G in TB. cbn [bind] in TB.
    rewrite SY in TB. cbn [bind] in TB. change (lattice_type d) with "cF" in TB. rewrite T in TB. cbn [bind] in TB.
    change (getitem "cF2" HPKOT_DEFAULT_K_PATHS) with (Ok "GAMMA-X-U|K-GAMMA-L-W-X") in TB. cbn [bind] in TB. congruence. }
  subst path. assert (X : get_path_as_list "GAMMA-X-U|K-GAMMA-L-W-X" = Ok [["GAMMA"; "X"; "U"]; ["K"; "GAMMA"; "L"; "W"; "X"]]) by reflexivity. congruence.
Qed.
