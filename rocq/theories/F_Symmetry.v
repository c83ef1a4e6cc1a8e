(* F_Symmetry.v : symmetries of a lattice from integer matrices, and certificates for tables of points. *)
From Verif Require Import Base M_Strings M_Dict M_Numerical M_Geometry M_Cell F_Geometry F_Voronoi S_Zone F_Zone S_Symmetry.
Open Scope string_scope.
Open Scope list_scope.
Open Scope R_scope.

(* ---------- vectors of the lattice ---------- *)
Lemma lattice_neg r k : in_lattice r k -> in_lattice r (vneg k).
Proof.
  intros (n & ->). exists (Zv (- zx n) (- zy n) (- zz n)). unfold ofZv. cbn [zx zy zz]. rewrite !opp_IZR.
  generalize (IZR (zx n)), (IZR (zy n)), (IZR (zz n)). intros. destruct r as [[] [] []]. vunfold. f_equal; ring.
Qed.
Lemma lattice_add r k k' : in_lattice r k -> in_lattice r k' -> in_lattice r (vadd k k').
Proof.
  intros (n & ->) (m & ->). exists (Zv (zx n + zx m) (zy n + zy m) (zz n + zz m)). unfold ofZv. cbn [zx zy zz]. rewrite !plus_IZR.
  generalize (IZR (zx n)), (IZR (zy n)), (IZR (zz n)), (IZR (zx m)), (IZR (zy m)), (IZR (zz m)). intros. destruct r as [[] [] []]. vunfold. f_equal; ring.
Qed.
Lemma lattice_zero r : in_lattice r vzero.
Proof. exists (Zv 0 0 0). unfold ofZv. cbn [zx zy zz]. destruct r as [[] [] []]. vunfold. unfold vzero. f_equal; ring. Qed.

(* ---------- equivalence is an equivalence ---------- *)
Lemma symmetry_id r : symmetry r mid.
Proof. split; [intros u v; destruct u, v; vunfold; ring|]. intros k. replace (vmat k mid) with k by (destruct k; vunfold; f_equal; ring). tauto. Qed.
Lemma symmetry_neg r : symmetry r (mscale (- 1) mid).
Proof.
  assert (E : forall k, vmat k (mscale (- 1) mid) = vneg k) by (intros k; destruct k; vunfold; f_equal; ring).
  split; [intros u v; rewrite !E; destruct u, v; vunfold; ring|]. intros k. rewrite E. split; [apply lattice_neg|].
  intros H. apply lattice_neg in H. replace (vneg (vneg k)) with k in H by (destruct k; vunfold; f_equal; ring). auto.
Qed.
Lemma symmetry_mul r Q P : symmetry r Q -> symmetry r P -> symmetry r (mmul Q P).
Proof. intros (O1 & L1) (O2 & L2). split; [intros u v; rewrite <- !vmat_mmul, O2, O1; auto|]. intros k. rewrite <- vmat_mmul, L1, L2. tauto. Qed.
Lemma symmetry_orthogonal r Q : symmetry r Q -> mmul Q (tr Q) = mid.
Proof.
  intros (O & _). pose proof (O (V3 1 0 0) (V3 1 0 0)) as H11. pose proof (O (V3 1 0 0) (V3 0 1 0)) as H12. pose proof (O (V3 1 0 0) (V3 0 0 1)) as H13.
  pose proof (O (V3 0 1 0) (V3 0 1 0)) as H22. pose proof (O (V3 0 1 0) (V3 0 0 1)) as H23. pose proof (O (V3 0 0 1) (V3 0 0 1)) as H33.
  destruct Q as [[a b c] [d e f] [g h i]]. revert H11 H12 H13 H22 H23 H33. unfold mid, mk. vunfold. intros. f_equal; f_equal; lra.
Qed.
Lemma orthogonal_left Q : mmul Q (tr Q) = mid -> mmul (tr Q) Q = mid.
Proof.
  intros H. assert (D : det Q <> 0).
  { intros Z. apply (f_equal det) in H. rewrite det_mmul, Z in H. revert H. unfold mid, mk. vunfold. lra. }
  assert (E : tr Q = minv_total Q).
  { rewrite <- (mmul_id_l (tr Q)), <- (minv_l Q D), mmul_assoc, H, mmul_id_r. reflexivity. }
  rewrite E. apply minv_l. auto.
Qed.
Lemma symmetry_inv r Q : symmetry r Q -> symmetry r (tr Q).
Proof.
  intros S. pose proof (symmetry_orthogonal _ _ S) as E. pose proof (orthogonal_left _ E) as E'. destruct S as (O & L). split.
  - intros u v. rewrite <- (O (vmat u (tr Q))), !vmat_mmul, E'. replace (vmat u mid) with u by (destruct u; vunfold; f_equal; ring). replace (vmat v mid) with v by (destruct v; vunfold; f_equal; ring). auto.
  - intros k. rewrite (L (vmat k (tr Q))), vmat_mmul, E'. replace (vmat k mid) with k by (destruct k; vunfold; f_equal; ring). tauto.
Qed.
Lemma vmat_vadd u v m : vmat (vadd u v) m = vadd (vmat u m) (vmat v m).
Proof. destruct u, v, m as [[] [] []]. vunfold. f_equal; ring. Qed.
Lemma vmat_vneg u m : vmat (vneg u) m = vneg (vmat u m).
Proof. destruct u, m as [[] [] []]. vunfold. f_equal; ring. Qed.
Lemma equivalent_refl r k : equivalent r k k.
Proof.
  exists mid. split; [apply symmetry_id|]. replace (vsub k (vmat k mid)) with vzero; [apply lattice_zero|]. destruct k. unfold vzero. vunfold. f_equal; ring.
Qed.
Lemma equivalent_sym r k k' : equivalent r k k' -> equivalent r k' k.
Proof.
  intros (Q & S & L). exists (tr Q). split; [apply symmetry_inv; auto|]. pose proof (symmetry_orthogonal _ _ S) as E.
  apply (proj2 (symmetry_inv _ _ S)) in L. apply lattice_neg in L.
  replace (vsub k (vmat k' (tr Q))) with (vneg (vmat (vsub k' (vmat k Q)) (tr Q))); auto.
  replace (vsub k' (vmat k Q)) with (vadd k' (vneg (vmat k Q))) by (destruct k', (vmat k Q); vunfold; f_equal; ring).
  rewrite vmat_vadd, vmat_vneg, vmat_mmul, E. replace (vmat k mid) with k by (destruct k; vunfold; f_equal; ring).
  destruct k, (vmat k' (tr Q)). vunfold. f_equal; ring.
Qed.
Lemma equivalent_trans r k k' k'' : equivalent r k k' -> equivalent r k' k'' -> equivalent r k k''.
Proof.
  intros (Q & S & L) (P & T & M). exists (mmul Q P). split; [apply symmetry_mul; auto|]. apply (proj2 T) in L.
  replace (vsub k'' (vmat k (mmul Q P))) with (vadd (vsub k'' (vmat k' P)) (vmat (vsub k' (vmat k Q)) P)); [apply lattice_add; auto|].
  replace (vsub k' (vmat k Q)) with (vadd k' (vneg (vmat k Q))) by (destruct k', (vmat k Q); vunfold; f_equal; ring).
  rewrite vmat_vadd, vmat_vneg, vmat_mmul. destruct k'', (vmat k' P), (vmat k (mmul Q P)). vunfold. f_equal; ring.
Qed.
Lemma equivalent_neg r k : equivalent r k (vneg k).
Proof.
  exists (mscale (- 1) mid). split; [apply symmetry_neg|]. replace (vsub (vneg k) (vmat k (mscale (- 1) mid))) with vzero; [apply lattice_zero|].
  destruct k. unfold vzero. vunfold. f_equal; ring.
Qed.

(* ---------- from relative coordinates ---------- *)
(* an integer matrix that keeps the scalar products of the basis is a symmetry *)
Definition keeps (ts : terms) (g : zmat) : Prop := forall x y, form ts (vmat x (ofZ g)) (vmat y (ofZ g)) = form ts x y.
Definition zinv (n : zvec) (g : zmat) : zvec :=
  (Zv (zx n * z11 g + zy n * z21 g + zz n * z31 g) (zx n * z12 g + zy n * z22 g + zz n * z32 g) (zx n * z13 g + zy n * z23 g + zz n * z33 g))%Z.
Lemma zinv_vmat n g : ofZv (zinv n g) = vmat (ofZv n) (ofZ g).
Proof. destruct n as [n1 n2 n3], g as [a1 a2 a3 a4 a5 a6 a7 a8 a9]. unfold zinv, ofZv, ofZ, mk. cbn [zx zy zz z11 z12 z13 z21 z22 z23 z31 z32 z33]. vunfold. rewrite !plus_IZR, !mult_IZR. reflexivity. Qed.
Definition zid : zmat := Zm 1 0 0 0 1 0 0 0 1.
Lemma ofZ_id : ofZ zid = mid. Proof. reflexivity. Qed.
Lemma ofZ_zmul a b : ofZ (zmul a b) = mmul (ofZ a) (ofZ b).
Proof. destruct a as [a1 a2 a3 a4 a5 a6 a7 a8 a9], b as [b1 b2 b3 b4 b5 b6 b7 b8 b9]. unfold zmul, ofZ, mk. cbn [z11 z12 z13 z21 z22 z23 z31 z32 z33]. vunfold. rewrite !plus_IZR, !mult_IZR. reflexivity. Qed.
Lemma vmat_mid u : vmat u mid = u.
Proof. destruct u; vunfold; f_equal; ring. Qed.
Lemma integer_symmetry r K ts g g' : det r <> 0 -> metric r K ts -> keeps ts g -> zmul g g' = zid ->
  symmetry r (mmul (minv_total r) (mmul (ofZ g) r)).
Proof.
  intros D M KG GG. set (Q := mmul (minv_total r) (mmul (ofZ g) r)).
  assert (E : forall x, vmat (vmat x r) Q = vmat (vmat x (ofZ g)) r).
  { intros x. unfold Q. rewrite vmat_mmul, <- mmul_assoc, minv_r, mmul_id_l by auto. symmetry. apply vmat_mmul. }
  assert (B : forall u, u = vmat (vmat u (minv_total r)) r) by (intros u; rewrite vmat_mmul, minv_l, vmat_mid by auto; reflexivity).
  split.
  - intros u v. rewrite (B u), (B v), !E, !M. f_equal. apply KG.
  - intros k. split.
    + intros (n & ->). exists (zinv n g). rewrite E, zinv_vmat. reflexivity.
    + intros (n & H). exists (zinv n g'). rewrite (B k), E in H. apply vmat_cancel in H; auto.
      rewrite zinv_vmat, <- H, (vmat_mmul (vmat k (minv_total r)) (ofZ g) (ofZ g')), <- ofZ_zmul, GG, ofZ_id, vmat_mid. apply B.
Qed.
Lemma equivalent_table r K ts g g' n k k' : det r <> 0 -> metric r K ts -> keeps ts g -> zmul g g' = zid -> k' = vadd (vmat k (ofZ g)) (ofZv n) ->
  equivalent r (vmat k r) (vmat k' r).
Proof.
  intros D M KG GG ->. exists (mmul (minv_total r) (mmul (ofZ g) r)). split; [apply (integer_symmetry r K ts g g'); auto|].
  exists n. rewrite vmat_mmul, <- mmul_assoc, minv_r, mmul_id_l, vmat_vadd, vmat_mmul by auto.
  generalize (vmat k (mmul (ofZ g) r)), (vmat (ofZv n) r). intros [] []. vunfold. f_equal; ring.
Qed.
Lemma equivalent_same r n k k' : k' = vadd k (ofZv n) -> equivalent r (vmat k r) (vmat k' r).
Proof.
  intros ->. exists mid. split; [apply symmetry_id|]. exists n. rewrite vmat_mid, vmat_vadd. generalize (vmat k r), (vmat (ofZv n) r). intros [] []. vunfold. f_equal; ring.
Qed.
Lemma equivalent_opposite r n k k' : k' = vadd (vneg k) (ofZv n) -> equivalent r (vmat k r) (vmat k' r).
Proof.
  intros E. apply (equivalent_trans _ _ (vmat (vneg k) r)); [rewrite vmat_vneg; apply equivalent_neg|apply (equivalent_same r n); auto].
Qed.

(* ---------- tables ---------- *)
Definition same_letters (r : mat) (pts : dict vec) : Prop :=
  forall n1 k1 n2 k2, In (n1, k1) pts -> In (n2, k2) pts -> letters n1 = letters n2 -> equivalent r (vmat k1 r) (vmat k2 r).
(* the first point of the table with these letters *)
Fixpoint first_with (l : string) (pts : dict vec) : option vec :=
  match pts with [] => None | (n, k) :: pts => if String.eqb (letters n) l then Some k else first_with l pts end.
Definition like_first (r : mat) (pts : dict vec) (kv : string * vec) : Prop :=
  exists k0, first_with (letters (fst kv)) pts = Some k0 /\ equivalent r (vmat k0 r) (vmat (snd kv) r).
Lemma like_first_all r pts : Forall (like_first r pts) pts -> same_letters r pts.
Proof.
  intros H n1 k1 n2 k2 I1 I2 E. rewrite Forall_forall in H. destruct (H _ I1) as (k & F1 & E1). destruct (H _ I2) as (k' & F2 & E2). cbn [fst snd] in *.
  rewrite E in F1. assert (k' = k) by congruence. subst k'. apply (equivalent_trans _ _ (vmat k r)); auto. apply equivalent_sym. auto.
Qed.
(* the planes that points of the table are on *)
Definition planes := list (string * list zvec).
Definition planes_ok (r : mat) (pts : dict vec) (ps : planes) : Prop :=
  Forall (fun p => exists k, In (fst p, k) pts /\ Forall (fun n => n <> Zv 0 0 0 /\ on_plane r n (vmat k r)) (snd p)) ps.
Lemma plane_ok r K ts n k : metric r K ts -> 2 * form ts k (ofZv n) = form ts (ofZv n) (ofZv n) -> on_plane r n (vmat k r).
Proof. intros M E. unfold on_plane. pose proof (dist_form r K ts k n M) as X. rewrite E in X. lra. Qed.
Definition zvec_eqb (a b : zvec) : bool := (Z.eqb (zx a) (zx b) && Z.eqb (zy a) (zy b) && Z.eqb (zz a) (zz b))%bool.
Lemma zvec_eqb_eq a b : zvec_eqb a b = true -> a = b.
Proof.
  unfold zvec_eqb. rewrite !Bool.andb_true_iff, !Z.eqb_eq. intros ((X & Y) & Z). destruct a, b. cbn in *. congruence.
Qed.
Definition planes_of (ps : planes) (x : string) : list zvec := match lookup x ps with Some l => l | None => [] end.
Definition share (ps : planes) (x y : string) : bool := existsb (fun n => existsb (zvec_eqb n) (planes_of ps y)) (planes_of ps x).
Fixpoint covers_seg (ps : planes) (s : list string) : bool :=
  match s with
  | x :: (y :: _) as s' => (String.eqb x "GAMMA" || String.eqb y "GAMMA" || share ps x y) && covers_seg ps s'
  | _ => true
  end.
Definition covers (ps : planes) (l : list (list string)) : bool := forallb (covers_seg ps) l.
(* every step of the path from one point other than GAMMA to another is on a plane *)
Definition steps_on_planes (r : mat) (pts : dict vec) (l : list (list string)) : Prop :=
  forall x y, follows l x y -> x <> "GAMMA" -> y <> "GAMMA" ->
  exists kx ky n, In (x, kx) pts /\ In (y, ky) pts /\ n <> Zv 0 0 0 /\ on_plane r n (vmat kx r) /\ on_plane r n (vmat ky r).
Lemma covers_steps r pts ps l : planes_ok r pts ps -> covers ps l = true -> steps_on_planes r pts l.
Proof.
  intros OK C x y (s & pre & post & I & ->) NX NY. unfold covers in C. rewrite forallb_forall in C. specialize (C _ I). clear I.
  assert (S : share ps x y = true).
  { revert C. induction pre as [|z pre IH].
    - cbn [app covers_seg]. intros C. apply andb_prop in C. destruct C as (C & _). destruct (String.eqb_spec x "GAMMA"); [contradiction|].
      destruct (String.eqb_spec y "GAMMA"); [contradiction|]. exact C.
    - intros C. apply IH. cbn [app] in C. destruct (pre ++ x :: y :: post) as [|w l'] eqn:E; [destruct pre; discriminate|].
      cbn [covers_seg] in C. apply andb_prop in C. tauto. }
  assert (X : forall z n, existsb (zvec_eqb n) (planes_of ps z) = true -> exists k, In (z, k) pts /\ n <> Zv 0 0 0 /\ on_plane r n (vmat k r)).
  { intros z n E. apply existsb_exists in E. destruct E as (n' & J & E). apply zvec_eqb_eq in E. subst n'.
    unfold planes_of in J. destruct (lookup z ps) as [ns|] eqn:LK; [|destruct J]. 
    assert (J2 : In (z, ns) ps).
    { clear - LK. induction ps as [|[z' ns'] ps IH]; cbn in LK; [discriminate|]. destruct (String.eqb_spec z z'); [left; congruence|right; auto]. }
    unfold planes_ok in OK. rewrite Forall_forall in OK. destruct (OK _ J2) as (k & IK & FN). cbn [fst snd] in *. rewrite Forall_forall in FN. exists k. split; auto. }
  unfold share in S. apply existsb_exists in S. destruct S as (n & J & S).
  destruct (X y n S) as (ky & IY & NZ & PY). destruct (X x n) as (kx & IX & _ & PX).
  { apply existsb_exists. exists n. split; auto. unfold zvec_eqb. rewrite !Z.eqb_refl. reflexivity. }
  exists kx, ky, n. auto.
Qed.
