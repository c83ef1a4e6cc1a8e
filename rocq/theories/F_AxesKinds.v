(* F_AxesKinds.v : the kind of lattice given by each set of two-fold rotations of the table *)
From Verif Require Import Base M_Numerical M_Geometry M_Cell M_Niggli S_Niggli F_Niggli M_Voronoi M_ScExamples F_Voronoi F_Geometry
  M_Lepage F_Lepage F_LepageEx F_Bravais F_Angles F_Classify P_Bravais F_Axes F_AxesData F_AxesTable F_AxesReal.
Open Scope R_scope.

(* a family of metrics, some of its two-fold rotations, and for each excluded relation between the
   parameters one of the rotations that a metric with that relation has in addition *)
Record kind := Kind { k_fam : family; k_gens : list zmat; k_extra : list (list Z * zmat) }.
Definition kinds : list kind := [
  Kind fam_cub [Zm (-1) 0 0 0 (-1) 0 0 0 1; Zm (-1) 0 0 0 0 (-1) 0 (-1) 0; Zm 0 (-1) 0 (-1) 0 0 0 0 (-1)] [];
  Kind fam_fcc [Zm (-1) 0 0 (-1) 0 1 (-1) 1 0; Zm (-1) 0 0 0 0 (-1) 0 (-1) 0; Zm (-1) 0 1 0 (-1) 1 0 0 1] [];
  Kind fam_bcc [Zm (-1) (-1) (-1) 0 0 1 0 1 0; Zm (-1) 0 0 0 (-1) 0 1 1 1; Zm (-1) 0 0 0 0 (-1) 0 (-1) 0] [];
  Kind fam_hex [Zm (-1) (-1) 0 0 1 0 0 0 (-1); Zm (-1) 0 0 1 1 0 0 0 (-1)] [];
  Kind fam_tet [Zm (-1) 0 0 0 1 0 0 0 (-1); Zm 0 (-1) 0 (-1) 0 0 0 0 (-1)]
    [([1; -1]%Z, Zm (-1) 0 0 0 0 (-1) 0 (-1) 0)];
  Kind fam_bct [Zm (-1) (-1) (-1) 0 0 1 0 1 0; Zm (-1) 0 0 0 (-1) 0 1 1 1]
    [([1; -1]%Z, Zm (-1) 0 0 0 0 (-1) 0 (-1) 0); ([2; -1]%Z, Zm (-1) 0 (-1) 0 (-1) (-1) 0 0 1)];
  Kind fam_rhl [Zm (-1) 0 0 0 0 (-1) 0 (-1) 0; Zm 0 (-1) 0 (-1) 0 0 0 0 (-1)]
    [([1; -4]%Z, Zm (-1) (-1) (-1) 0 0 1 0 1 0); ([1; -1]%Z, Zm (-1) 0 0 0 (-1) 0 0 0 1); ([4; -1]%Z, Zm (-1) 0 0 (-1) 0 1 (-1) 1 0)];
  Kind fam_orc [Zm (-1) 0 0 0 (-1) 0 0 0 1; Zm (-1) 0 0 0 1 0 0 0 (-1)]
    [([1; -1; 0]%Z, Zm 0 (-1) 0 (-1) 0 0 0 0 (-1)); ([1; 0; -1]%Z, Zm 0 0 (-1) 0 (-1) 0 (-1) 0 0); ([0; 1; -1]%Z, Zm (-1) 0 0 0 0 (-1) 0 (-1) 0)];
  Kind fam_orcc [Zm (-1) 0 0 0 (-1) 0 0 0 1; Zm 0 (-1) 0 (-1) 0 0 0 0 (-1)]
    [([1; -1; 0]%Z, Zm (-1) 0 0 0 1 0 0 0 (-1)); ([3; -1; 0]%Z, Zm (-1) (-1) 0 0 1 0 0 0 (-1)); ([1; -3; 0]%Z, Zm (-1) 0 0 (-1) 1 0 0 0 (-1))];
  Kind fam_orcf [Zm (-1) 0 0 (-1) 0 1 (-1) 1 0; Zm 0 (-1) 1 0 (-1) 0 1 (-1) 0]
    [([1; -1; 0]%Z, Zm (-1) 0 1 0 (-1) 1 0 0 1); ([1; 0; -1]%Z, Zm (-1) 1 0 0 1 0 0 1 (-1)); ([0; 1; -1]%Z, Zm (-1) 0 0 0 0 (-1) 0 (-1) 0)];
  Kind fam_orci [Zm (-1) (-1) (-1) 0 0 1 0 1 0; Zm 0 0 1 (-1) (-1) (-1) 1 0 0]
    [([1; -1; 0]%Z, Zm (-1) 0 0 0 (-1) 0 1 1 1); ([1; 0; -1]%Z, Zm (-1) 0 0 1 1 1 0 0 (-1)); ([0; 1; -1]%Z, Zm (-1) 0 0 0 0 (-1) 0 (-1) 0)]].

(* ---------------- change of basis ---------------- *)
Definition Yof (X : zmat) : zmat := F_Niggli.zscale (zdet X) (F_Niggli.zadj X).
Lemma Yof_l X : unimodular X -> zmul (Yof X) X = zid.
Proof. intros U. unfold Yof. rewrite zmul_scale, zmul_zadj. destruct U as [-> | ->]; reflexivity. Qed.
Lemma zadj_r m : zmul m (F_Niggli.zadj m) = F_Niggli.zscale (zdet m) zid.
Proof. destruct m; unfold F_Niggli.zadj, F_Niggli.zscale; vunfold; f_equal; ring. Qed.
Lemma zmul_scale_r k a b : zmul a (F_Niggli.zscale k b) = F_Niggli.zscale k (zmul a b).
Proof. destruct a, b; unfold F_Niggli.zscale; vunfold; f_equal; ring. Qed.
Lemma Yof_r X : unimodular X -> zmul X (Yof X) = zid.
Proof. intros U. unfold Yof. rewrite zmul_scale_r, zadj_r. destruct U as [-> | ->]; reflexivity. Qed.
Lemma metric_change X d : metric (mmul (ofZ X) d) = mmul (mmul (ofZ X) (metric d)) (tr (ofZ X)).
Proof. unfold metric. rewrite tr_mmul, !mmul_assoc. reflexivity. Qed.
Lemma metric_back X d : unimodular X -> metric d = mmul (mmul (ofZ (Yof X)) (metric (mmul (ofZ X) d))) (tr (ofZ (Yof X))).
Proof.
  intros U. rewrite metric_change.
  transitivity (mmul (mmul (mmul (ofZ (Yof X)) (ofZ X)) (metric d)) (mmul (tr (ofZ X)) (tr (ofZ (Yof X))))); [|rewrite !mmul_assoc; reflexivity].
  rewrite <- tr_mmul, <- ofZ_mul, Yof_l by auto. rewrite ofZ_id. replace (tr mid) with mid by reflexivity. rewrite mmul_id_l, mmul_id_r. reflexivity.
Qed.
Lemma Sym_change X d w : unimodular X -> (Sym (mmul (ofZ X) d) w <-> Sym d (zmul (zmul (Yof X) w) X)).
Proof.
  intros U. unfold Sym. rewrite !ofZ_mul, !tr_mmul. split; intros S.
  - transitivity (mmul (mmul (ofZ (Yof X)) (mmul (mmul (ofZ w) (metric (mmul (ofZ X) d))) (tr (ofZ w)))) (tr (ofZ (Yof X)))).
    + rewrite metric_change, !mmul_assoc. reflexivity.
    + rewrite S. symmetry. apply metric_back, U.
  - rewrite metric_change.
    transitivity (mmul (mmul (ofZ X) (mmul (mmul (mmul (mmul (ofZ (Yof X)) (ofZ w)) (ofZ X)) (metric d)) (mmul (tr (ofZ X)) (mmul (tr (ofZ w)) (tr (ofZ (Yof X))))))) (tr (ofZ X))); [|rewrite S; reflexivity].
    transitivity (mmul (mmul (mmul (ofZ X) (ofZ (Yof X))) (mmul (ofZ w) (mmul (mmul (ofZ X) (metric d)) (mmul (tr (ofZ X)) (tr (ofZ w)))))) (mmul (tr (ofZ (Yof X))) (tr (ofZ X)))).
    + assert (E1 : mmul (ofZ X) (ofZ (Yof X)) = mid) by (rewrite <- ofZ_mul, Yof_r, ofZ_id by auto; reflexivity).
      assert (E2 : mmul (tr (ofZ (Yof X))) (tr (ofZ X)) = mid) by (rewrite <- tr_mmul, E1; reflexivity).
      rewrite E1, E2, mmul_id_l, mmul_id_r, !mmul_assoc. reflexivity.
    + rewrite !mmul_assoc. reflexivity.
Qed.
Lemma is_two_conj X w : unimodular X -> is_two w = true -> is_two (zmul (zmul (Yof X) w) X) = true.
Proof.
  unfold is_two. intros U T. apply andb_true_iff in T. destruct T as (T1 & T2). apply Z.eqb_eq in T1. apply zeqb_true in T2.
  assert (A : forall a b c, zmul (zmul a b) c = zmul a (zmul b c)) by (intros [] [] []; vunfold; f_equal; ring).
  assert (C : forall a b, ztrace (zmul a b) = ztrace (zmul b a)) by (intros [] []; unfold ztrace; vunfold; ring).
  assert (I : forall a, zmul zid a = a) by (intros []; unfold zid; vunfold; f_equal; ring).
  assert (I' : forall a, zmul a zid = a) by (intros []; unfold zid; vunfold; f_equal; ring).
  apply andb_true_iff. split.
  - apply Z.eqb_eq. rewrite C, <- A, Yof_r, I by auto. exact T1.
  - apply zeqb_true. rewrite !A. rewrite <- (A X (Yof X)), Yof_r, I by auto. rewrite <- (A w w), T2. change zone with zid. rewrite I, Yof_l by auto. reflexivity.
Qed.
Definition conj_gs (Y : zmat) (gs : list zmat) : list zmat := map (fun g => zmul (zmul Y g) (ztr Y)) gs.
Lemma lin_conj Y : forall ps gs, mmul (mmul (ofZ Y) (lin ps gs)) (tr (ofZ Y)) = lin ps (conj_gs Y gs).
Proof.
  assert (Z : forall a, mmul (mmul a mzero) (tr a) = mzero) by (intros [[] [] []]; unfold mzero; vunfold; vcomp; ring).
  induction ps as [|p ps IH]; intros [|g gs]; cbn [lin conj_gs map]; auto. change (map _ gs) with (conj_gs Y gs). rewrite <- IH, !ofZ_mul, ofZ_tr.
  generalize (ofZ Y) (ofZ g) (lin ps gs). clear. intros [[] [] []] [[] [] []] [[] [] []]. unfold madd. vunfold. vcomp; ring.
Qed.

(* ---------------- what the rotations say about the metric ---------------- *)
Lemma metric_pos d u : det d <> 0 -> u <> Zv 0 0 0 -> 0 < dot (vmat (ofZv u) (metric d)) (ofZv u).
Proof.
  intros D U. rewrite <- dot_metric. pose proof (image_nonzero d u D U) as N. destruct (vmat (ofZv u) d) as [a b c]. vunfold.
  destruct (Req_dec a 0) as [->|]; [|nra]. destruct (Req_dec b 0) as [->|]; [|nra]. destruct (Req_dec c 0) as [->|]; [|nra]. congruence.
Qed.
Lemma metric_form d : exists a b c x y z, metric d = mk a z y z b x y x c.
Proof.
  destruct d as [[a1 a2 a3] [b1 b2 b3] [c1 c2 c3]]. unfold metric. vunfold. repeat eexists; vcomp; try reflexivity; ring.
Qed.
Ltac use_gens H := repeat match type of H with
  | Forall _ (_ :: _) => let H1 := fresh "S" in let H2 := fresh "R" in
      pose proof (Forall_inv H) as H1; pose proof (Forall_inv_tail H) as H2; clear H; rename H2 into H; unfold Sym in H1
  end; clear H.
Lemma kind_metric k d : In k kinds -> det d <> 0 -> Forall (Sym d) (k_gens k) ->
  exists ps, metric d = lin ps (f_gs (k_fam k)) /\ Forall (fun p => 0 < p) ps /\ length ps = length (f_gs (k_fam k)).
Proof.
  intros K D H.
  assert (PP : forall x y z, (x <> 0 \/ y <> 0 \/ z <> 0)%Z -> 0 < dot (vmat (ofZv (Zv x y z)) (metric d)) (ofZv (Zv x y z))).
  { intros x y z N. apply metric_pos; auto. intros E. injection E. lia. }
  destruct (metric_form d) as (a & b & c & x & y & z & M).
  cbn in K. unfold Sym in H. rewrite M in *. clear M.
  repeat (destruct K as [<-|K]; [|]); [..|destruct K].
  all: cbn [k_gens k_fam f_gs fam_cub fam_fcc fam_bcc fam_hex fam_tet fam_bct fam_rhl fam_orc fam_orcc fam_orcf fam_orci] in *.
  all: use_gens H; unfold ofZ in *; vunfold; repeat match goal with E : M3 _ _ _ = M3 _ _ _ |- _ => injection E; clear E; intros end.
  all: unfold ofZv in PP; cbn [Base.zx Base.zy Base.zz] in PP.
  - exists [a]. pose proof (PP 1%Z 0%Z 0%Z ltac:(lia)). split; [|split; [repeat constructor; lra|reflexivity]].
    unfold sym6, lin, madd, mzero, ofZ. vunfold. vcomp; lra.
  - exists [z]. pose proof (PP 1%Z (-1)%Z 0%Z ltac:(lia)). split; [|split; [repeat constructor; lra|reflexivity]].
    unfold sym6, lin, madd, mzero, ofZ. vunfold. vcomp; lra.
  - exists [-z]. pose proof (PP 1%Z 1%Z 0%Z ltac:(lia)). split; [|split; [repeat constructor; lra|reflexivity]].
    unfold sym6, lin, madd, mzero, ofZ. vunfold. vcomp; lra.
  - exists [a / 2; c]. pose proof (PP 1%Z 0%Z 0%Z ltac:(lia)). pose proof (PP 0%Z 0%Z 1%Z ltac:(lia)). split; [|split; [repeat constructor; lra|reflexivity]].
    unfold sym6, lin, madd, mzero, ofZ. vunfold. vcomp; lra.
  - exists [a; c]. pose proof (PP 1%Z 0%Z 0%Z ltac:(lia)). pose proof (PP 0%Z 0%Z 1%Z ltac:(lia)). split; [|split; [repeat constructor; lra|reflexivity]].
    unfold sym6, lin, madd, mzero, ofZ. vunfold. vcomp; lra.
  - exists [(a + y) / 2; - y]. pose proof (PP 1%Z 0%Z 1%Z ltac:(lia)). pose proof (PP 1%Z 1%Z 0%Z ltac:(lia)). split; [|split; [repeat constructor; lra|reflexivity]].
    unfold sym6, lin, madd, mzero, ofZ. vunfold. vcomp; lra.
  - exists [(a - x) / 3; (a + 2 * x) / 3]. pose proof (PP 1%Z (-1)%Z 0%Z ltac:(lia)). pose proof (PP 1%Z 1%Z 1%Z ltac:(lia)). split; [|split; [repeat constructor; lra|reflexivity]].
    unfold sym6, lin, madd, mzero, ofZ. vunfold. vcomp; lra.
  - exists [a; b; c]. pose proof (PP 1%Z 0%Z 0%Z ltac:(lia)). pose proof (PP 0%Z 1%Z 0%Z ltac:(lia)). pose proof (PP 0%Z 0%Z 1%Z ltac:(lia)).
    split; [|split; [repeat constructor; lra|reflexivity]]. unfold sym6, lin, madd, mzero, ofZ. vunfold. vcomp; lra.
  - exists [(a + z) / 2; (a - z) / 2; c]. pose proof (PP 1%Z 1%Z 0%Z ltac:(lia)). pose proof (PP 1%Z (-1)%Z 0%Z ltac:(lia)). pose proof (PP 0%Z 0%Z 1%Z ltac:(lia)).
    split; [|split; [repeat constructor; lra|reflexivity]]. unfold sym6, lin, madd, mzero, ofZ. vunfold. vcomp; lra.
  - exists [x; y; z]. pose proof (PP (-1)%Z 1%Z 1%Z ltac:(lia)). pose proof (PP 1%Z (-1)%Z 1%Z ltac:(lia)). pose proof (PP 1%Z 1%Z (-1)%Z ltac:(lia)).
    split; [|split; [repeat constructor; lra|reflexivity]]. unfold sym6, lin, madd, mzero, ofZ. vunfold. vcomp; lra.
  - exists [(a + x) / 2; (a + y) / 2; (a + z) / 2]. pose proof (PP 0%Z 1%Z 1%Z ltac:(lia)). pose proof (PP 1%Z 0%Z 1%Z ltac:(lia)). pose proof (PP 1%Z 1%Z 0%Z ltac:(lia)).
    split; [|split; [repeat constructor; lra|reflexivity]]. unfold sym6, lin, madd, mzero, ofZ. vunfold. vcomp; lra.
Qed.

(* a metric with one of the excluded relations has the additional rotation *)
Lemma kind_extra k d ps n w : In k kinds -> metric d = lin ps (f_gs (k_fam k)) -> length ps = length (f_gs (k_fam k)) ->
  In (n, w) (k_extra k) -> comb ps n = 0 -> Sym d w.
Proof.
  intros K M L I C. unfold Sym. rewrite M. clear M. cbn in K.
  repeat (destruct K as [<-|K]; [|]); [..|destruct K].
  all: cbn [k_extra k_fam f_gs fam_cub fam_fcc fam_bcc fam_hex fam_tet fam_bct fam_rhl fam_orc fam_orcc fam_orcf fam_orci In] in *.
  all: destruct ps as [|p1 [|p2 [|p3 [|]]]]; try discriminate L.
  all: repeat (destruct I as [I|I]; [injection I as <- <-|]); try destruct I.
  all: cbn [comb] in C; unfold sym6, lin, madd, mzero, ofZ; vunfold; vcomp; lra.
Qed.
Definition covered (k : kind) : bool :=
  forallb (fun n => existsb (fun q => if list_eq_dec Z.eq_dec n (fst q) then true else false) (k_extra k)) (f_nz (k_fam k)).
Lemma kinds_covered : forallb covered kinds = true.
Proof. vm_compute. reflexivity. Qed.

(* ---------------- from the metric to a documented cell ---------------- *)
Lemma root x : 0 < x -> 0 < sqrt x /\ sqrt x * sqrt x = x.
Proof. intros X. split; [apply sqrt_lt_R0, X|apply sqrt_sqrt; lra]. Qed.
Lemma root_neq x y : 0 < x -> 0 < y -> x <> y -> sqrt x <> sqrt y.
Proof. intros X Y N E. apply N. rewrite <- (sqrt_sqrt x), <- (sqrt_sqrt y) by lra. rewrite E. reflexivity. Qed.
Lemma kind_shape k d ps : In k kinds -> metric d = lin ps (f_gs (k_fam k)) -> Forall (fun p => 0 < p) ps -> length ps = length (f_gs (k_fam k)) ->
  Forall (fun n => comb ps n <> 0) (f_nz (k_fam k)) -> exists m, standard (f_name (k_fam k)) m /\ copy_of d m.
Proof.
  intros K M P L N. unfold copy_of. fold (metric d). rewrite M. clear M. cbn in K.
  repeat (destruct K as [<-|K]; [|]); [..|destruct K].
  all: cbn [k_extra k_fam f_gs f_nz f_name fam_cub fam_fcc fam_bcc fam_hex fam_tet fam_bct fam_rhl fam_orc fam_orcc fam_orcf fam_orci] in *.
  all: destruct ps as [|p1 [|p2 [|p3 [|]]]]; try discriminate L; clear L.
  all: rewrite Forall_forall in P; pose proof (P p1 ltac:(cbn; auto)) as P1; try (pose proof (P p2 ltac:(cbn; auto)) as P2); try (pose proof (P p3 ltac:(cbn; auto)) as P3); clear P.
  all: repeat match type of N with Forall _ (_ :: _) => let H1 := fresh "N" in let H2 := fresh "R" in
         pose proof (Forall_inv N) as H1; pose proof (Forall_inv_tail N) as H2; clear N; rename H2 into N; cbn [comb] in H1 end; clear N.
  - destruct (root p1 P1) as (A & A2). exists (SC_CUB (sqrt p1)). split; [constructor; auto|].
    unfold sym6, lin, madd, mzero, ofZ, SC_CUB. vunfold. vcomp; lra.
  - destruct (root (4 * p1) ltac:(lra)) as (A & A2). exists (SC_FCC (sqrt (4 * p1))). split; [constructor; auto|].
    unfold sym6, lin, madd, mzero, ofZ, SC_FCC. vunfold. vcomp; lra.
  - destruct (root (4 * p1) ltac:(lra)) as (A & A2). exists (SC_BCC (sqrt (4 * p1))). split; [constructor; auto|].
    unfold sym6, lin, madd, mzero, ofZ, SC_BCC. vunfold. vcomp; lra.
  - destruct (root (2 * p1) ltac:(lra)) as (A & A2). destruct (root p2 P2) as (C & C2). exists (SC_HEX (sqrt (2 * p1)) (sqrt p2)). split; [constructor; auto|].
    pose proof (sqrt_sqrt 3 ltac:(lra)) as S3. unfold sym6, lin, madd, mzero, ofZ, SC_HEX.
    set (s := sqrt 3) in *. set (a := sqrt (2 * p1)) in *. set (c := sqrt p2) in *. clearbody s a c. vunfold.
    assert (Q : a * s * (a * s) = 6 * p1) by (transitivity ((a * a) * (s * s)); [ring|rewrite A2, S3; ring]).
    vcomp; try lra.
  - destruct (root p1 P1) as (A & A2). destruct (root p2 P2) as (C & C2). exists (SC_TET (sqrt p1) (sqrt p2)). split.
    + constructor; auto. apply root_neq; auto. lra.
    + unfold sym6, lin, madd, mzero, ofZ, SC_TET. vunfold. vcomp; lra.
  - destruct (root (4 * p1) ltac:(lra)) as (A & A2). destruct (root (4 * p2) ltac:(lra)) as (C & C2). exists (SC_BCT (sqrt (4 * p1)) (sqrt (4 * p2))). split.
    + constructor; auto; [apply root_neq; lra|]. rewrite <- sqrt_mult by lra. apply root_neq; lra.
    + unfold sym6, lin, madd, mzero, ofZ, SC_BCT. vunfold. vcomp; lra.
  - set (q := 2 * p1 + p2). assert (Q : 0 < q) by (unfold q; lra). destruct (root q Q) as (A & A2).
    set (co := (p2 - p1) / q). assert (CO : q * co = p2 - p1) by (unfold co; field; lra).
    assert (C1 : - (1 / 2) < co) by (apply Rmult_lt_reg_l with q; auto; rewrite CO; unfold q; lra).
    assert (C2 : co < 1) by (apply Rmult_lt_reg_l with q; auto; rewrite CO; unfold q; lra).
    pose proof PI_RGT_0 as PI0. set (al := acos co * 180 / PI). assert (EA : al * PI / 180 = acos co) by (unfold al; field; lra).
    assert (EC : cos (acos co) = co) by (apply cos_acos; lra).
    assert (B : 0 < acos co < 2 * (PI / 3)).
    { pose proof (acos_bound co) as BB. split.
      - destruct (Rle_lt_or_eq_dec _ _ (proj1 BB)) as [|E]; auto. rewrite <- E, cos_0 in EC. lra.
      - destruct (Rlt_le_dec (acos co) (2 * (PI / 3))) as [|X]; auto. exfalso.
        assert (cos (acos co) <= cos (2 * (PI / 3))) by (apply cos_decr_1; lra). rewrite cos_2PI3 in H. lra. }
    assert (AL : 0 < al < 120).
    { unfold al. split; [apply Rdiv_lt_0_compat; lra|]. apply Rmult_lt_reg_r with PI; auto. unfold Rdiv. rewrite Rmult_assoc, Rinv_l; lra. }
    assert (OK : exists m, SC_RHL (sqrt q) al = Ok m).
    { unfold SC_RHL. cbv zeta. replace (al * TORADIANS) with (acos co) by (rewrite <- EA; unfold TORADIANS; field).
      rewrite EC. assert (H : co = 2 * (cos (acos co / 2) * cos (acos co / 2)) - 1).
      { rewrite <- EC at 1. replace (acos co) with (2 * (acos co / 2)) at 1 by field. rewrite cos_2a_cos. ring. }
      set (ch := cos (acos co / 2)) in *. clearbody ch.
      destruct (Reqb_spec ch 0) as [Z|Z]; [exfalso; rewrite Z in H; lra|].
      unfold py_sqrt. destruct (Rltb_spec (1 - co * co / (ch * ch)) 0) as [Z1|Z1]; [exfalso|eexists; reflexivity].
      assert (W : ch * ch = (1 + co) / 2) by lra. rewrite W in Z1.
      assert ((1 - co * co / ((1 + co) / 2)) * (1 + co) = (1 - co) * (1 + 2 * co)) by (field; lra). nra. }
    destruct OK as (m & OK). exists m. split.
    + apply (st_rhl (sqrt q) al m); auto.
      * intros E. assert (X : acos co = PI / 3) by (rewrite <- EA, E; field). rewrite X, cos_PI3 in EC. unfold q in CO. nra.
      * intros E. assert (X : acos co = PI / 2) by (rewrite <- EA, E; field). rewrite X, cos_PI2 in EC. nra.
      * rewrite EA, EC. intros E. unfold q in CO. nra.
    + rewrite (rhl_metric _ _ _ OK), EA, EC, A2. f_equal. f_equal; [|f_equal]; unfold q in *; lra.
  - destruct (root p1 P1) as (A & A2). destruct (root p2 P2) as (B & B2). destruct (root p3 P3) as (C & C2).
    exists (SC_ORC (sqrt p1) (sqrt p2) (sqrt p3)). split; [constructor; auto; apply root_neq; lra|].
    unfold sym6, lin, madd, mzero, ofZ, SC_ORC. vunfold. vcomp; lra.
  - destruct (root (4 * p1) ltac:(lra)) as (A & A2). destruct (root (4 * p2) ltac:(lra)) as (B & B2). destruct (root p3 P3) as (C & C2).
    exists (SC_ORCC (sqrt (4 * p1)) (sqrt (4 * p2)) (sqrt p3)). split.
    + constructor; auto; [apply root_neq; lra| |]; rewrite <- sqrt_mult by lra; apply root_neq; lra.
    + unfold sym6, lin, madd, mzero, ofZ, SC_ORCC. vunfold. vcomp; lra.
  - destruct (root (4 * p1) ltac:(lra)) as (A & A2). destruct (root (4 * p2) ltac:(lra)) as (B & B2). destruct (root (4 * p3) ltac:(lra)) as (C & C2).
    exists (SC_ORCF (sqrt (4 * p1)) (sqrt (4 * p2)) (sqrt (4 * p3))). split; [constructor; auto; apply root_neq; lra|].
    unfold sym6, lin, madd, mzero, ofZ, SC_ORCF. vunfold. vcomp; lra.
  - destruct (root (4 * p1) ltac:(lra)) as (A & A2). destruct (root (4 * p2) ltac:(lra)) as (B & B2). destruct (root (4 * p3) ltac:(lra)) as (C & C2).
    exists (SC_ORCI (sqrt (4 * p1)) (sqrt (4 * p2)) (sqrt (4 * p3))). split; [constructor; auto; apply root_neq; lra|].
    unfold sym6, lin, madd, mzero, ofZ, SC_ORCI. vunfold. vcomp; lra.
Qed.

(* ---------------- the entries of the table ---------------- *)
Definition unimodb (X : zmat) : bool := if zdet X =? 1 then true else zdet X =? -1.
Definition us_of (A : list zmat) : list zvec := zdedup (map fst (filter (par A) good)).
Definition zname (A : list zmat) (gs : list zmat) : option string :=
  let us := us_of A in
  if known_angles gs us then
    let ang := zangles gs us in
    if comparable gs (ztet_xy ang us) then match zchecks ang us (length_le gs) with Ok o => o | Err _ => None end else None
  else None.
Definition conjugate (X w : zmat) : zmat := zmul (zmul (Yof X) w) X.
(* bases of body-centred orthorhombic lattices in which the three axes add up to twice a basis vector,
   so that two of the components of the sum are zero; none of them is reduced *)
Definition seven : list (list zmat) := [
  [Zm 1 (-1) 2 (-1) 1 (-2) 2 (-2) 4; Zm 1 (-1) 0 (-1) 1 0 0 0 0; Zm 1 1 0 1 1 0 0 0 0];
  [Zm 1 0 0 0 0 0 0 0 0; Zm 1 0 2 0 0 0 2 0 4; Zm 1 2 0 2 4 0 0 0 0];
  [Zm 1 1 2 1 1 2 2 2 4; Zm 1 (-1) 0 (-1) 1 0 0 0 0; Zm 1 1 0 1 1 0 0 0 0];
  [Zm 1 1 (-1) 1 1 (-1) (-1) (-1) 1; Zm 1 (-1) (-1) (-1) 1 1 (-1) 1 1; Zm 1 1 1 1 1 1 1 1 1];
  [Zm 1 2 (-1) 2 4 (-2) (-1) (-2) 1; Zm 1 0 (-1) 0 0 0 (-1) 0 1; Zm 1 0 1 0 0 0 1 0 1];
  [Zm 1 2 1 2 4 2 1 2 1; Zm 1 0 1 0 0 0 1 0 1; Zm 1 0 (-1) 0 0 0 (-1) 0 1];
  [Zm 1 1 1 1 1 1 1 1 1; Zm 1 (-1) 1 (-1) 1 (-1) 1 (-1) 1; Zm 1 1 (-1) 1 1 (-1) (-1) (-1) 1]].
Lemma seven_not_reduced gs d ps : In gs seven -> niggli_reduced d -> metric d = lin ps gs -> Forall (fun p => 0 < p) ps -> length ps = length gs ->
  Forall (fun n => comb ps n <> 0) (f_nz fam_orci) -> False.
Proof.
  intros I [r1 r2 r3 r4 r5 r6 r7 r8 r9 r10 r11 r12 r13 r14 r15 r16] M P L N. unfold near in *.
  assert (T : cell_params d = NP (dot (vmat (V3 1 0 0) (metric d)) (V3 1 0 0)) (dot (vmat (V3 0 1 0) (metric d)) (V3 0 1 0)) (dot (vmat (V3 0 0 1) (metric d)) (V3 0 0 1))
     (2 * dot (vmat (V3 0 1 0) (metric d)) (V3 0 0 1)) (2 * dot (vmat (V3 1 0 0) (metric d)) (V3 0 0 1)) (2 * dot (vmat (V3 1 0 0) (metric d)) (V3 0 1 0))).
  { unfold cell_params, metric. destruct d as [[] [] []]. vunfold. f_equal; ring. }
  rewrite T, M in *. clear T M. cbn [nA nB nC nxi neta nzeta] in *.
  assert (L3 : length ps = 3%nat) by (cbn in I; repeat (destruct I as [<-|I]; [exact L|]); destruct I).
  destruct ps as [|p1 [|p2 [|p3 [|]]]]; try discriminate L3; clear L L3.
  rewrite Forall_forall in P; pose proof (P p1 ltac:(cbn; auto)) as P1; pose proof (P p2 ltac:(cbn; auto)) as P2; pose proof (P p3 ltac:(cbn; auto)) as P3; clear P.
  cbn [f_nz fam_orci] in N. pose proof (Forall_inv N) as N1. apply Forall_inv_tail in N. pose proof (Forall_inv N) as N2. clear N. cbn [comb] in N1, N2.
  clear r9 r10 r11 r12 r13 r14 r15 r16.
  cbn in I. repeat (destruct I as [<-|I]; [|]); [..|destruct I].
  all: cbn [lin] in *; unfold madd, mzero, ofZ in *; vunfold.
  all: repeat match goal with H : context [Rabs ?x] |- _ => match type of H with Rabs _ <= Rabs _ + _ => fail 1 | _ <= _ => idtac | _ -> _ => idtac end end.
  all: destruct r5 as [(e1 & e2 & e3)|(e1 & e2 & e3)]; try lra.
  all: unfold Rabs in *; repeat destruct Rcase_abs; try lra.
Qed.
Fixpoint gmem (gs : list zmat) (l : list (list zmat)) : bool := match l with [] => false | h :: l' => if seteqb gs h then true else gmem gs l' end.
Lemma gmem_true gs l : gmem gs l = true -> In gs l.
Proof. induction l as [|h l IH]; cbn; [discriminate|]. destruct (seteqb gs h) eqn:E; [left; symmetry; apply seteqb_true, E|right; auto]. Qed.

(* three of the seven axes of a hexagonal lattice are not the two-fold axes of any lattice *)
Definition hexagonal (A : list zmat) (X : zmat) : bool :=
  if zmem (conjugate X (Zm (-1) 0 0 0 (-1) 0 0 0 1)) A then false else
  let B := map (fun w => zmul (zmul X w) (Yof X)) A in
  if zmem (Zm (-1) (-1) 0 0 1 0 0 0 (-1)) B then zmem (Zm 0 1 0 1 0 0 0 0 (-1)) B
  else if zmem (Zm (-1) 0 0 1 1 0 0 0 (-1)) B then zmem (Zm 0 (-1) 0 (-1) 0 0 0 0 (-1)) B else false.
Definition entry_ok (e : entry) : bool :=
  let A := e_set e in let X := e_X e in
  if all (fun w => zmem w twos) A then
  if unimodb X then
  match nth_error kinds (e_code e) with
  | Some k =>
      if all (fun g => zmem (conjugate X g) A) (k_gens k) then
      if all (fun q => if is_two (snd q) then negb (zmem (conjugate X (snd q)) A) else false) (k_extra k) then
      let gs := conj_gs (Yof X) (f_gs (k_fam k)) in
      match zname A gs with
      | Some s => if String.eqb s (f_name (k_fam k)) then true else if Nat.eqb (e_code e) 10 then gmem gs seven else false
      | None => false
      end
      else false else false
  | None => if Nat.leb (length A) 1 then true else hexagonal A X
  end else false else false.
Lemma entries_ok : all entry_ok entries = true.
Proof. vm_compute. reflexivity. Qed.
