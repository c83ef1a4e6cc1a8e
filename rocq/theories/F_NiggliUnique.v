(* F_NiggliUnique.v : two reduced cells of one lattice have the same six numbers. *)
From Verif Require Import Base M_Niggli S_Niggli F_Niggli F_Voronoi F_Minima F_NiggliCheck F_NiggliCerts.
Open Scope R_scope.

(* ---------------- the form of a cell ---------------- *)
Lemma cell_qf c n : dot (vmat (ofZv n) c) (vmat (ofZv n) c) =
  qf (cell_params c) (IZR (zx n)) (IZR (zy n)) (IZR (zz n)).
Proof.
  destruct n, c as [[a1 a2 a3] [b1 b2 b3] [c1 c2 c3]]. unfold qf, cell_params, ofZv. vunfold.
  cbn [nA nB nC nxi neta nzeta Base.zx Base.zy Base.zz]. ring.
Qed.
Lemma row1_nz c : det c <> 0 -> row1 c <> vzero.
Proof. intros D E. apply D. unfold det. rewrite E. vunfold. ring. Qed.
Lemma cell_A_pos c : det c <> 0 -> 0 < nA (cell_params c).
Proof.
  intros D. cbn. pose proof (dot_self_nonneg (row1 c)). destruct H; auto.
  exfalso. apply (row1_nz c D), dot_self_zero. auto.
Qed.

(* ---------------- successive minima ---------------- *)
Definition zz3 (n : zvec) := zx n = 0%Z /\ zy n = 0%Z /\ zz n = 0%Z.
Lemma level_min p n : reduced 0 p -> 0 < nA p -> ~ zz3 n ->
  level p (zx n) (zy n) (zz n) <= qf p (IZR (zx n)) (IZR (zy n)) (IZR (zz n)).
Proof. intros R P N. apply reduced_min; auto. unfold zz3 in N. lia. Qed.
Lemma level_1 p n : reduced 0 p -> nA p <= level p (zx n) (zy n) (zz n).
Proof. intros [R1 R2 _ _ _ _ _ _ _ _ _ _ _ _ _ _]. unfold level. repeat destruct (Z.eqb _ _); lra. Qed.
Lemma level_2 p n : reduced 0 p -> (zy n <> 0 \/ zz n <> 0)%Z -> nB p <= level p (zx n) (zy n) (zz n).
Proof.
  intros [R1 R2 _ _ _ _ _ _ _ _ _ _ _ _ _ _] N. unfold level.
  destruct (Z.eqb_spec (zz n) 0), (Z.eqb_spec (zy n) 0); try lra. lia.
Qed.
Lemma level_3 p n : (zz n <> 0)%Z -> level p (zx n) (zy n) (zz n) = nC p.
Proof. intros N. unfold level. destruct (Z.eqb_spec (zz n) 0); [contradiction|reflexivity]. Qed.

Definition len2 (v : vec) := dot v v.
Section Minima.
  Context (c : mat) (D : det c <> 0) (Rd : reduced 0 (cell_params c)).
  Lemma min_1 n : ~ zz3 n -> len2 (row1 c) <= len2 (vmat (ofZv n) c).
  Proof.
    intros N. unfold len2. rewrite cell_qf.
    pose proof (level_min _ n Rd (cell_A_pos c D) N). pose proof (level_1 _ n Rd). cbn [cell_params nA] in *. lra.
  Qed.
  Lemma min_2 n : (zy n <> 0 \/ zz n <> 0)%Z -> len2 (row2 c) <= len2 (vmat (ofZv n) c).
  Proof.
    intros N. unfold len2. rewrite cell_qf.
    pose proof (level_min _ n Rd (cell_A_pos c D) ltac:(unfold zz3; lia)). pose proof (level_2 _ n Rd N).
    cbn [cell_params nB] in *. lra.
  Qed.
  Lemma min_3 n : (zz n <> 0)%Z -> len2 (row3 c) <= len2 (vmat (ofZv n) c).
  Proof.
    intros N. unfold len2. rewrite cell_qf.
    pose proof (level_min _ n Rd (cell_A_pos c D) ltac:(unfold zz3; lia)). rewrite level_3 in H by auto.
    cbn [cell_params nC] in *. lra.
  Qed.
End Minima.

(* ---------------- the change between two cells of one lattice ---------------- *)
Lemma lattice_rows c1 c2 : (forall v, in_lattice c2 v -> in_lattice c1 v) ->
  exists t, c2 = mmul (ofZ t) c1.
Proof.
  intros H.
  assert (X : forall e, in_lattice c2 (vmat (ofZv e) c2)) by (intros e; exists e; reflexivity).
  destruct (H _ (X (Zv 1 0 0))) as [[a1 a2 a3] E1]. destruct (H _ (X (Zv 0 1 0))) as [[b1 b2 b3] E2].
  destruct (H _ (X (Zv 0 0 1))) as [[d1 d2 d3] E3].
  exists (Zm a1 a2 a3 b1 b2 b3 d1 d2 d3).
  assert (F : forall e r, vmat (ofZv e) c2 = r -> r = vmat (ofZv e) c2) by auto.
  assert (R1 : row1 c2 = vmat (ofZv (Zv 1 0 0)) c2) by (destruct c2 as [[] [] []]; unfold ofZv; vunfold; cbn; f_equal; ring).
  assert (R2 : row2 c2 = vmat (ofZv (Zv 0 1 0)) c2) by (destruct c2 as [[] [] []]; unfold ofZv; vunfold; cbn; f_equal; ring).
  assert (R3 : row3 c2 = vmat (ofZv (Zv 0 0 1)) c2) by (destruct c2 as [[] [] []]; unfold ofZv; vunfold; cbn; f_equal; ring).
  rewrite <- R1 in E1. rewrite <- R2 in E2. rewrite <- R3 in E3.
  destruct c2 as [u v w]. cbn [row1 row2 row3] in *. subst. reflexivity.
Qed.
Lemma same_lattice_change c1 c2 : det c1 <> 0 -> same_lattice c1 c2 ->
  exists t, unimodular t /\ c2 = mmul (ofZ t) c1.
Proof.
  intros D S. destruct (lattice_rows c1 c2) as [t E]; [intros v; apply S|].
  destruct (lattice_rows c2 c1) as [s E']; [intros v; apply S|].
  exists t. split; auto.
  assert (K : (zdet s * zdet t)%Z = 1%Z).
  { apply eq_IZR. rewrite mult_IZR, <- !ofZ_det. rewrite E in E'. apply (f_equal det) in E'.
    rewrite !det_mmul in E'. apply (Rmult_eq_reg_r (det c1)); auto. lra. }
  unfold unimodular. assert (zdet t = 1 \/ zdet t = -1)%Z; [|tauto].
  destruct (Z.eq_mul_1_nonneg' (Z.abs (zdet t)) (Z.abs (zdet s)) ltac:(lia) ltac:(rewrite <- Z.abs_mul, Z.mul_comm, K; reflexivity)); lia.
Qed.

(* ---------------- entries of the change ---------------- *)
Definition zrow (v : Z * Z * Z) : zvec := let '(x, y, z) := v in Zv x y z.
Definition qr (p : npar) (v : Z * Z * Z) : R := let '(x, y, z) := v in qf p (IZR x) (IZR y) (IZR z).
Definition in_box (v : Z * Z * Z) := let '(x, y, z) := v in small x /\ small y /\ small z.
Lemma rows_small p t : reduced 0 p -> 0 < nA p -> zdet t <> 0%Z ->
  qr p (r1 t) <= nA p -> qr p (r2 t) <= nB p -> qr p (r3 t) <= nC p ->
  in_box (r1 t) /\ in_box (r2 t) /\ in_box (r3 t).
Proof.
  intros R P D Q1 Q2 Q3. destruct t as [a1 a2 a3 b1 b2 b3 c1 c2 c3].
  unfold r1, r2, r3, qr, in_box in *. cbn [z11 z12 z13 z21 z22 z23 z31 z32 z33] in *.
  pose proof (reduced_min p a1 a2 a3 R P) as M1. pose proof (reduced_min p b1 b2 b3 R P) as M2.
  pose proof (reduced_min p c1 c2 c3 R P) as M3.
  pose proof (red_AB _ _ R) as AB. pose proof (red_BC _ _ R) as BC. rewrite Rplus_0_r in AB, BC.
  unfold zdet in D; cbn [z11 z12 z13 z21 z22 z23 z31 z32 z33] in D.
  assert (N1 : (a1 <> 0 \/ a2 <> 0 \/ a3 <> 0)%Z).
  { destruct (Z.eq_dec a1 0), (Z.eq_dec a2 0), (Z.eq_dec a3 0); try lia; subst; lia. }
  assert (N2 : (b1 <> 0 \/ b2 <> 0 \/ b3 <> 0)%Z).
  { destruct (Z.eq_dec b1 0), (Z.eq_dec b2 0), (Z.eq_dec b3 0); try lia; subst; lia. }
  assert (N3 : (c1 <> 0 \/ c2 <> 0 \/ c3 <> 0)%Z).
  { destruct (Z.eq_dec c1 0), (Z.eq_dec c2 0), (Z.eq_dec c3 0); try lia; subst; lia. }
  specialize (M1 N1). specialize (M2 N2). specialize (M3 N3).
  destruct M1 as [M1 M1']. destruct M2 as [M2 M2']. destruct M3 as [M3 M3'].
  assert (LA : forall x y z, nA p <= level p x y z) by (intros; unfold level; repeat destruct (Z.eqb _ _); lra).
  assert (LB : forall x y z, (y <> 0 \/ z <> 0)%Z -> nB p <= level p x y z).
  { intros x y z N. unfold level. destruct (Z.eqb_spec z 0), (Z.eqb_spec y 0); try lra. lia. }
  assert (LC : forall x y z, (z <> 0)%Z -> level p x y z = nC p).
  { intros x y z N. unfold level. destruct (Z.eqb_spec z 0); [contradiction|reflexivity]. }
  (* when B = C some row reaches the third vector, and so on *)
  assert (SX : forall x, nA p * IZR x * IZR x <= nA p -> small x).
  { intros x Hx. unfold small. rewrite Rmult_assoc, <- mult_IZR in Hx.
    assert (IZR (x * x) <= 1). { apply Rmult_le_reg_l with (nA p); lra. }
    apply le_IZR in H. nia. }
  assert (X1 : small a1 /\ small a2 /\ small a3).
  { destruct (Classical_Prop.classic (small a1 /\ small a2 /\ small a3)) as [|Bx]; auto.
    specialize (M1' Bx). pose proof (LA a1 a2 a3). lra. }
  assert (X2 : small b1 /\ small b2 /\ small b3).
  { destruct (Classical_Prop.classic (small b1 /\ small b2 /\ small b3)) as [|Bx]; auto.
    specialize (M2' Bx). exfalso.
    destruct (Z.eq_dec b2 0) as [E2|E2]; [destruct (Z.eq_dec b3 0) as [E3|E3]|].
    - assert (Y : (a2 <> 0 \/ a3 <> 0)%Z).
      { destruct (Z.eq_dec a2 0), (Z.eq_dec a3 0); try lia; subst; lia. }
      pose proof (LB a1 a2 a3 Y). apply Bx. subst. split; [|unfold small; lia].
      apply SX. unfold qf in Q2. lra.
    - pose proof (LB b1 b2 b3 ltac:(auto)). lra.
    - pose proof (LB b1 b2 b3 ltac:(auto)). lra. }
  split; [exact X1|]. split; [exact X2|].
  destruct (Classical_Prop.classic (small c1 /\ small c2 /\ small c3)) as [|Bx]; auto.
  specialize (M3' Bx). exfalso.
  destruct (Z.eq_dec c3 0) as [E3|E3]; [|rewrite LC in M3' by auto; lra].
  assert (BC' : nB p = nC p).
  { destruct (Z.eq_dec a3 0) as [Ea|Ea].
    - destruct (Z.eq_dec b3 0) as [Eb|Eb].
      + exfalso. subst. lia.
      + rewrite LC in M2 by auto. lra.
    - rewrite LC in M1 by auto. lra. }
  destruct (Z.eq_dec c2 0) as [E2|E2]; [|pose proof (LB c1 c2 c3 ltac:(auto)); lra].
  assert (Y : (a2 <> 0 \/ a3 <> 0)%Z).
  { destruct (Z.eq_dec a2 0), (Z.eq_dec a3 0); try lia; subst; lia. }
  pose proof (LB a1 a2 a3 Y). apply Bx. subst. split; [|unfold small; lia].
  apply SX. unfold qf in Q3. lra.
Qed.
Lemma in_box_In v : in_box v -> In v box.
Proof.
  destruct v as [[x y] z]. unfold in_box, small. intros (H1 & H2 & H3).
  assert (X : (x = -1 \/ x = 0 \/ x = 1)%Z) by lia. assert (Y : (y = -1 \/ y = 0 \/ y = 1)%Z) by lia.
  assert (W : (z = -1 \/ z = 0 \/ z = 1)%Z) by lia.
  destruct X as [-> | [-> | ->]], Y as [-> | [-> | ->]], W as [-> | [-> | ->]];
    unfold box; cbn [flat_map map app In]; tauto.
Qed.

(* ---------------- the table ---------------- *)
Definition rows_of (ty : bool) (i : nat) : list (option tree) :=
  match ty, i with
  | false, 0%nat => rows_01 | false, 1%nat => rows_02 | false, _ => rows_03
  | true, 0%nat => rows_11 | true, 1%nat => rows_12 | true, _ => rows_13
  end.
Definition changes_of (ty : bool) := changes (rows (rows_of ty 0)) (rows (rows_of ty 1)) (rows (rows_of ty 2)).
Definition certs_of (ty ty' : bool) : list cert :=
  match ty, ty' with
  | false, false => certs_00 | false, true => certs_01 | true, false => certs_10 | true, true => certs_11
  end.
Lemma rows_checked ty i : (i < 3)%nat -> rows_ok ty i (rows_of ty i) = true.
Proof. intros H. destruct i as [|[|[|]]]; try lia; destruct ty; vm_compute; reflexivity. Qed.
Lemma certs_checked ty ty' : forall2b (check_cert ty ty') (changes_of ty) (certs_of ty ty') = true.
Proof. destruct ty, ty'; vm_compute; reflexivity. Qed.

Lemma type_of p : reduced 0 p -> exists ty, of_type ty p.
Proof. intros R. destruct (red_sign _ _ R); [exists true|exists false]; assumption. Qed.

Lemma same_length_ok p i v x : qr p v = x -> ev (unit_lin i) (plist p) = x ->
  Forall (holds (plist p)) (same_length i v).
Proof.
  intros H1 H2. assert (E : ev (quad v v) (plist p) = x).
  { rewrite <- H1. destruct v as [[a b] d]. unfold qr, quad, qf, plist. cbn [ev].
    rewrite !mult_IZR. ring. }
  unfold same_length. apply Forall_cons; [|apply Forall_cons; [|apply Forall_nil]];
    unfold holds, lsub; cbn [fst snd]; rewrite ev_add, ev_scale, E, H2; lra.
Qed.

Lemma unique_1 p p' t : reduced 0 p -> 0 < nA p -> reduced 0 p' -> 0 < nA p' ->
  plist p' = map (fun l => ev l (plist p)) (moved t) ->
  nA p' = nA p -> nB p' = nB p -> nC p' = nC p -> zdet t = 1%Z -> p' = p.
Proof.
  intros R P R' P' M EA EB EC Dt.
  assert (Q : forall v, ev (quad v v) (plist p) = qr p v).
  { intros [[a b] d]. unfold qr, quad, qf, plist. cbn [ev]. rewrite !mult_IZR. ring. }
  assert (Q1 : qr p (r1 t) = nA p) by (rewrite <- Q, <- EA; unfold plist in M at 1; injection M as M1 M2 M3 M4 M5 M6; auto).
  assert (Q2 : qr p (r2 t) = nB p) by (rewrite <- Q, <- EB; unfold plist in M at 1; injection M as M1 M2 M3 M4 M5 M6; auto).
  assert (Q3 : qr p (r3 t) = nC p) by (rewrite <- Q, <- EC; unfold plist in M at 1; injection M as M1 M2 M3 M4 M5 M6; auto).
  destruct (rows_small p t R P ltac:(lia) ltac:(lra) ltac:(lra) ltac:(lra)) as (B1 & B2 & B3).
  destruct (type_of p R) as [ty T]. destruct (type_of p' R') as [ty' T'].
  destruct (reduced_conds ty p R P T) as [C I].
  assert (IN : In t (changes_of ty)).
  { apply changes_in; auto; (eapply rows_sound; [apply rows_checked; lia|apply in_box_In; auto|exact C|exact I|]);
      eapply same_length_ok; eauto; cbn; lra. }
  destruct (forall2b_in _ _ _ t (certs_checked ty ty') IN) as [ct K].
  eapply cert_sound; eauto.
Qed.

Lemma params_neg c : cell_params (mneg c) = cell_params c.
Proof. destruct c as [[] [] []]. unfold cell_params. vunfold. f_equal; ring. Qed.
Definition zopp3 (t : zmat) : zmat := Zm (- z11 t) (- z12 t) (- z13 t) (- z21 t) (- z22 t) (- z23 t) (- z31 t) (- z32 t) (- z33 t).
Lemma ofZ_opp t c : mmul (ofZ (zopp3 t)) c = mneg (mmul (ofZ t) c).
Proof.
  destruct t, c as [[] [] []]. unfold zopp3. vunfold. cbn [Base.z11 Base.z12 Base.z13 Base.z21 Base.z22 Base.z23 Base.z31 Base.z32 Base.z33].
  rewrite !opp_IZR. f_equal; f_equal; ring.
Qed.
Lemma zdet_opp t : zdet (zopp3 t) = (- zdet t)%Z.
Proof. unfold zdet, zopp3. cbn [z11 z12 z13 z21 z22 z23 z31 z32 z33]. ring. Qed.
