(* F_AxesExcl.v : lattices of different families are different *)
From Verif Require Import Base M_Numerical M_Geometry M_Cell M_Niggli S_Niggli F_Niggli M_Voronoi M_ScExamples F_Voronoi F_Geometry
  M_Lepage F_Lepage F_LepageEx F_Bravais F_Angles F_Classify P_Bravais F_Axes F_AxesData F_AxesTable F_AxesReal F_AxesKinds.
Open Scope R_scope.

(* ---------------- the axis of an integer rotation ---------------- *)
Definition zsub (a b : zmat) : zmat :=
  (Zm (z11 a - z11 b) (z12 a - z12 b) (z13 a - z13 b) (z21 a - z21 b) (z22 a - z22 b) (z23 a - z23 b) (z31 a - z31 b) (z32 a - z32 b) (z33 a - z33 b))%Z.
Definition vz (u : zvec) (w : zmat) : zvec :=
  (Zv (zx u * z11 w + zy u * z21 w + zz u * z31 w) (zx u * z12 w + zy u * z22 w + zz u * z32 w) (zx u * z13 w + zy u * z23 w + zz u * z33 w))%Z.
Definition zcross (a b : zvec) : zvec :=
  (Zv (zy a * zz b - zz a * zy b) (zz a * zx b - zx a * zz b) (zx a * zy b - zy a * zx b))%Z.
Definition zgcd (u : zvec) : Z := Z.gcd (Z.gcd (zx u) (zy u)) (zz u).
Definition zvec0 (u : zvec) : bool := match u with Zv 0 0 0 => true | _ => false end.
Definition col1 (w : zmat) := Zv (z11 w) (z21 w) (z31 w).
Definition col2 (w : zmat) := Zv (z12 w) (z22 w) (z32 w).
Definition col3 (w : zmat) := Zv (z13 w) (z23 w) (z33 w).
Definition axis_dir (h : zmat) : zvec :=
  let k := zsub h zid in
  let x := zcross (col1 k) (col2 k) in if zvec0 x then
  let y := zcross (col1 k) (col3 k) in if zvec0 y then zcross (col2 k) (col3 k) else y else x.
Definition axis_of (h : zmat) : zvec :=
  let x := axis_dir h in let g := zgcd x in (Zv (zx x / g) (zy x / g) (zz x / g))%Z.
(* u is the primitive vector fixed by h, unique up to the sign *)
Definition good_axis (h : zmat) (u : zvec) : bool :=
  if zvec0 (axis_dir h) then false else if zgcd u =? 1 then zvec_eqb (vz u h) u else false.
Lemma zvec0_false u : zvec0 u = false -> u <> Zv 0 0 0.
Proof. intros E ->. discriminate. Qed.
Lemma zvec0_true u : zvec0 u = true -> u = Zv 0 0 0.
Proof. destruct u as [[] [] []]; cbn; try discriminate; auto. Qed.
Lemma cross_zero u a b : zdot u a = 0%Z -> zdot u b = 0%Z -> zcross u (zcross a b) = Zv 0 0 0.
Proof.
  destruct u as [u1 u2 u3], a as [a1 a2 a3], b as [b1 b2 b3]. unfold zdot, zcross. cbn [Base.zx Base.zy Base.zz]. intros A B. f_equal.
  - transitivity (a1 * (u1 * b1 + u2 * b2 + u3 * b3) - b1 * (u1 * a1 + u2 * a2 + u3 * a3))%Z; [ring|rewrite A, B; ring].
  - transitivity (a2 * (u1 * b1 + u2 * b2 + u3 * b3) - b2 * (u1 * a1 + u2 * a2 + u3 * a3))%Z; [ring|rewrite A, B; ring].
  - transitivity (a3 * (u1 * b1 + u2 * b2 + u3 * b3) - b3 * (u1 * a1 + u2 * a2 + u3 * a3))%Z; [ring|rewrite A, B; ring].
Qed.
Lemma fixed_dir h u : vz u h = u -> zcross u (axis_dir h) = Zv 0 0 0.
Proof.
  intros F. assert (C : zdot u (col1 (zsub h zid)) = 0%Z /\ zdot u (col2 (zsub h zid)) = 0%Z /\ zdot u (col3 (zsub h zid)) = 0%Z).
  { destruct h as [h11 h12 h13 h21 h22 h23 h31 h32 h33], u as [a b c]. unfold vz in F. cbn [Base.zx Base.zy Base.zz Base.z11 Base.z12 Base.z13 Base.z21 Base.z22 Base.z23 Base.z31 Base.z32 Base.z33] in F.
    injection F as F1 F2 F3. unfold zdot, zsub, col1, col2, col3, zid; cbn [Base.zx Base.zy Base.zz Base.z11 Base.z12 Base.z13 Base.z21 Base.z22 Base.z23 Base.z31 Base.z32 Base.z33]. lia. }
  destruct C as (C1 & C2 & C3). unfold axis_dir. cbv zeta. destruct (zvec0 _); [destruct (zvec0 _)|]; apply cross_zero; auto.
Qed.
(* two primitive vectors along the same direction *)
Lemma gcd_bezout u : zgcd u = 1%Z -> exists x, zdot u x = 1%Z.
Proof.
  unfold zgcd. destruct u as [a b c]. cbn [Base.zx Base.zy Base.zz]. intros G. destruct (Z.gcd_bezout (Z.gcd a b) c 1) as (p & q & E); auto.
  destruct (Z.gcd_bezout a b (Z.gcd a b)) as (s & t & E'); auto. exists (Zv (p * s) (p * t) q). unfold zdot. cbn [Base.zx Base.zy Base.zz].
  transitivity (p * (s * a + t * b) + q * c)%Z; [ring|]. rewrite E'. exact E.
Qed.
Definition zneg (u : zvec) : zvec := (Zv (- zx u) (- zy u) (- zz u))%Z.
Lemma parallel_unique u v d : d <> Zv 0 0 0 -> zcross u d = Zv 0 0 0 -> zcross v d = Zv 0 0 0 -> zgcd u = 1%Z -> zgcd v = 1%Z -> v = u \/ v = zneg u.
Proof.
  intros D CU CV GU GV. destruct (gcd_bezout u GU) as (x & X). destruct (gcd_bezout v GV) as (y & Y).
  assert (C : zcross u v = Zv 0 0 0).
  { destruct u as [u1 u2 u3], v as [v1 v2 v3], d as [d1 d2 d3]. unfold zcross in *. cbn [Base.zx Base.zy Base.zz] in *. injection CU as U1 U2 U3. injection CV as V1 V2 V3.
    assert (K : (forall t, t * d1 = 0 -> t * d2 = 0 -> t * d3 = 0 -> t = 0)%Z).
    { intros t T1 T2 T3. destruct (Z.eq_dec t 0) as [|NT]; auto. exfalso. apply D. f_equal; eapply Z.mul_reg_l with (p := t); try rewrite Z.mul_0_r; auto. }
    assert (C : forall a1 a2 a3 b1 b2 b3 e1 e2 e3 : Z, (a2 * e3 - a3 * e2 = 0 -> a3 * e1 - a1 * e3 = 0 -> a1 * e2 - a2 * e1 = 0 -> b2 * e3 - b3 * e2 = 0 ->
      (a2 * b3 - a3 * b2) * e1 = 0 /\ (a2 * b3 - a3 * b2) * e2 = 0 /\ (a2 * b3 - a3 * b2) * e3 = 0)%Z).
    { clear. intros a1 a2 a3 b1 b2 b3 e1 e2 e3 U1 U2 U3 V1. split; [|split].
      - transitivity (- b3 * (a1 * e2 - a2 * e1) - b2 * (a3 * e1 - a1 * e3) - a1 * (b2 * e3 - b3 * e2))%Z; [ring|rewrite U2, U3, V1; ring].
      - transitivity (b2 * (a2 * e3 - a3 * e2) - a2 * (b2 * e3 - b3 * e2))%Z; [ring|rewrite U1, V1; ring].
      - transitivity (b3 * (a2 * e3 - a3 * e2) - a3 * (b2 * e3 - b3 * e2))%Z; [ring|rewrite U1, V1; ring]. }
    destruct (C u1 u2 u3 v1 v2 v3 d1 d2 d3 U1 U2 U3 V1) as (? & ? & ?). destruct (C u2 u3 u1 v2 v3 v1 d2 d3 d1 U2 U3 U1 V2) as (? & ? & ?).
    destruct (C u3 u1 u2 v3 v1 v2 d3 d1 d2 U3 U1 U2 V3) as (? & ? & ?). f_equal; apply K; auto. }
  (* v = (v.x) u and u = (u.y) v *)
  assert (P : forall a b t, zcross a b = Zv 0 0 0 -> zdot a t = 1%Z -> b = (Zv (zdot b t * zx a) (zdot b t * zy a) (zdot b t * zz a))%Z).
  { intros [a1 a2 a3] [b1 b2 b3] [t1 t2 t3] E T. unfold zcross, zdot in *. cbn [Base.zx Base.zy Base.zz] in *. injection E as E1 E2 E3. f_equal.
    - transitivity (b1 * (a1 * t1 + a2 * t2 + a3 * t3))%Z; [rewrite T; ring|].
      transitivity ((b1 * t1 + b2 * t2 + b3 * t3) * a1 - t2 * (a1 * b2 - a2 * b1) + t3 * (a3 * b1 - a1 * b3))%Z; [ring|rewrite E2, E3; ring].
    - transitivity (b2 * (a1 * t1 + a2 * t2 + a3 * t3))%Z; [rewrite T; ring|].
      transitivity ((b1 * t1 + b2 * t2 + b3 * t3) * a2 + t1 * (a1 * b2 - a2 * b1) - t3 * (a2 * b3 - a3 * b2))%Z; [ring|rewrite E1, E3; ring].
    - transitivity (b3 * (a1 * t1 + a2 * t2 + a3 * t3))%Z; [rewrite T; ring|].
      transitivity ((b1 * t1 + b2 * t2 + b3 * t3) * a3 - t1 * (a3 * b1 - a1 * b3) + t2 * (a2 * b3 - a3 * b2))%Z; [ring|rewrite E1, E2; ring]. }
  pose proof (P u v x C X) as EV. assert (C' : zcross v u = Zv 0 0 0).
  { destruct u, v. unfold zcross in *. cbn [Base.zx Base.zy Base.zz] in *. injection C as C1 C2 C3. f_equal; lia. }
  pose proof (P v u y C' Y) as EU. set (s := zdot v x) in *. set (t := zdot u y) in *.
  assert (ST : (s * t = 1)%Z).
  { rewrite <- Y. transitivity (zdot (Zv (s * zx u) (s * zy u) (s * zz u)) y)%Z; [|rewrite <- EV; reflexivity].
    unfold t. generalize s. intros k. clear. destruct u, y. unfold zdot. cbn [Base.zx Base.zy Base.zz]. ring. }
  assert (S1 : s = 1%Z \/ s = (-1)%Z) by (apply Z.eq_mul_1 in ST; exact ST).
  rewrite EV. destruct S1 as [-> | ->]; [left; destruct u; cbn [Base.zx Base.zy Base.zz]; f_equal; ring|right; destruct u; unfold zneg; cbn [Base.zx Base.zy Base.zz]; f_equal; ring].
Qed.

(* ---------------- conjugation ---------------- *)
(* how the axes of h in one basis and of V h V^-1 in another are related *)
Definition conjz (V h : zmat) : zmat := zmul (zmul V h) (Yof V).
Definition moved (V : zmat) (u v : zvec) : Prop := v = vz u (Yof V) \/ v = zneg (vz u (Yof V)).
Lemma zmul_assoc a b c : zmul (zmul a b) c = zmul a (zmul b c).
Proof. destruct a, b, c. vunfold. f_equal; ring. Qed.
Lemma zmul_1_l a : zmul zid a = a.
Proof. destruct a. vunfold. f_equal; ring. Qed.
Lemma zmul_1_r a : zmul a zid = a.
Proof. destruct a. vunfold. f_equal; ring. Qed.
Lemma vz_mul u a b : vz (vz u a) b = vz u (zmul a b).
Proof. destruct u, a, b. unfold vz, zmul. cbn [Base.zx Base.zy Base.zz Base.z11 Base.z12 Base.z13 Base.z21 Base.z22 Base.z23 Base.z31 Base.z32 Base.z33]. f_equal; ring. Qed.
Lemma vz_1 u : vz u zid = u.
Proof. destruct u. unfold vz, zid. cbn [Base.zx Base.zy Base.zz Base.z11 Base.z12 Base.z13 Base.z21 Base.z22 Base.z23 Base.z31 Base.z32 Base.z33]. f_equal; ring. Qed.
Lemma zgcd_moved u Y X : zmul Y X = zid -> zgcd u = 1%Z -> zgcd (vz u Y) = 1%Z.
Proof.
  intros E G. unfold zgcd in *. set (v := vz u Y). assert (U : u = vz v X) by (unfold v; rewrite vz_mul, E, vz_1; reflexivity).
  set (g := Z.gcd (Z.gcd (zx v) (zy v)) (zz v)). assert (Dx : (g | zx v)%Z) by (apply Z.divide_trans with (Z.gcd (zx v) (zy v)); [apply Z.gcd_divide_l|apply Z.gcd_divide_l]).
  assert (Dy : (g | zy v)%Z) by (apply Z.divide_trans with (Z.gcd (zx v) (zy v)); [apply Z.gcd_divide_l|apply Z.gcd_divide_r]).
  assert (Dz : (g | zz v)%Z) by apply Z.gcd_divide_r.
  assert (D1 : (g | 1)%Z).
  { rewrite <- G. rewrite U. unfold vz. cbn [Base.zx Base.zy Base.zz]. repeat apply Z.gcd_greatest; repeat apply Z.divide_add_r; apply Z.divide_mul_l; auto. }
  assert (0 <= g)%Z by apply Z.gcd_nonneg. apply Z.divide_1_r in D1. fold g. lia.
Qed.
Lemma good_axis_moved V h u v : unimodular V -> good_axis h u = true -> good_axis (conjz V h) v = true -> moved V u v.
Proof.
  intros U G1 G2. unfold good_axis in *. destruct (zvec0 (axis_dir h)) eqn:A1; [discriminate|]. destruct (zvec0 (axis_dir (conjz V h))) eqn:A2; [discriminate|].
  destruct (Z.eqb_spec (zgcd u) 1) as [P1|]; [|discriminate]. destruct (Z.eqb_spec (zgcd v) 1) as [P2|]; [|discriminate].
  apply zvec_eqb_true in G1, G2.
  apply (parallel_unique _ _ (axis_dir (conjz V h))); auto using zvec0_false, fixed_dir.
  - apply fixed_dir. unfold conjz. rewrite vz_mul, <- !zmul_assoc, Yof_l, zmul_1_l by auto. rewrite <- vz_mul, G1. reflexivity.
  - apply (zgcd_moved _ _ V); auto using Yof_l.
Qed.

Lemma zdet_mul a b : zdet (zmul a b) = (zdet a * zdet b)%Z.
Proof. destruct a, b. unfold zdet, zmul. cbn [Base.z11 Base.z12 Base.z13 Base.z21 Base.z22 Base.z23 Base.z31 Base.z32 Base.z33]. ring. Qed.
Lemma Yof_unimodular V : unimodular V -> unimodular (Yof V).
Proof.
  intros U. pose proof (Yof_l V U) as E. apply (f_equal zdet) in E. rewrite zdet_mul in E. change (zdet zid) with 1%Z in E. unfold unimodular in *.
  destruct U as [U|U]; rewrite U in E; lia.
Qed.
Lemma Yof_inv V : unimodular V -> Yof (Yof V) = V.
Proof.
  intros U. rewrite <- (zmul_1_r (Yof (Yof V))), <- (Yof_l V U), <- zmul_assoc, Yof_l by (apply Yof_unimodular, U). apply zmul_1_l.
Qed.

(* ---------------- signatures ---------------- *)
Definition zadd (a b : zvec) : zvec := (Zv (zx a + zx b) (zy a + zy b) (zz a + zz b))%Z.
Definition evb (u : zvec) : bool := Z.even (zx u) && Z.even (zy u) && Z.even (zz u).
Fixpoint sums (us : list zvec) : list zvec := match us with [] => [Zv 0 0 0] | u :: l => sums l ++ map (zadd u) (sums l) end.
Definition third (x : Z) : bool := (x mod 3 =? 0)%Z.
Definition m3 (u : zvec) : bool := third (zx u) && third (zy u) && third (zz u).
Definition thirds (us : list zvec) : bool :=
  match us with a :: b :: c :: _ => m3 (zadd (zadd a b) c) || m3 (zadd (zadd a b) (zneg c)) || m3 (zadd (zadd a (zneg b)) c) || m3 (zadd (zadd a (zneg b)) (zneg c)) | _ => false end.
Definition ones (h : zmat) : bool :=
  let k := zsub h zid in all Z.even [z11 k; z12 k; z13 k; z21 k; z22 k; z23 k; z31 k; z32 k; z33 k].
Definition bits (hs : list zmat) (us : list zvec) : list bool := map evb (sums us) ++ thirds us :: map ones hs.
Fixpoint pairs (hs : list zmat) : list Z := match hs with [] => [] | h :: l => ztrace h :: map (fun g => ztrace (zmul h g)) l ++ pairs l end.

Lemma ztrace_conj V h : unimodular V -> ztrace (conjz V h) = ztrace h.
Proof.
  intros U. unfold conjz. assert (C : forall a b, ztrace (zmul a b) = ztrace (zmul b a)) by (intros [] []; unfold ztrace; vunfold; ring).
  rewrite C, <- zmul_assoc, Yof_l, zmul_1_l by auto. reflexivity.
Qed.
Lemma conjz_mul V a b : unimodular V -> zmul (conjz V a) (conjz V b) = conjz V (zmul a b).
Proof. intros U. unfold conjz. rewrite !zmul_assoc. rewrite <- (zmul_assoc (Yof V) V), Yof_l, zmul_1_l by auto. reflexivity. Qed.
Lemma pairs_conj V hs : unimodular V -> pairs (map (conjz V) hs) = pairs hs.
Proof.
  intros U. induction hs as [|h l IH]; cbn [pairs map]; auto. rewrite ztrace_conj, IH, map_map by auto. f_equal. f_equal.
  apply map_ext. intros g. rewrite conjz_mul, ztrace_conj by auto. reflexivity.
Qed.
Lemma evb_true u : evb u = true <-> exists w, u = zadd w w.
Proof.
  unfold evb. rewrite !andb_true_iff, !Z.even_spec. destruct u as [a b c]. cbn [Base.zx Base.zy Base.zz]. split.
  - intros (((x & X) & (y & Y)) & (z & Z)). exists (Zv x y z). unfold zadd. cbn [Base.zx Base.zy Base.zz]. f_equal; lia.
  - intros ([x y z] & E). unfold zadd in E. cbn [Base.zx Base.zy Base.zz] in E. injection E as -> -> ->. repeat split; [exists x|exists y|exists z]; lia.
Qed.
Lemma vz_add a b w : vz (zadd a b) w = zadd (vz a w) (vz b w).
Proof. destruct a, b, w. unfold vz, zadd. cbn [Base.zx Base.zy Base.zz Base.z11 Base.z12 Base.z13 Base.z21 Base.z22 Base.z23 Base.z31 Base.z32 Base.z33]. f_equal; ring. Qed.
Lemma vz_neg a w : vz (zneg a) w = zneg (vz a w).
Proof. destruct a, w. unfold vz, zneg. cbn [Base.zx Base.zy Base.zz Base.z11 Base.z12 Base.z13 Base.z21 Base.z22 Base.z23 Base.z31 Base.z32 Base.z33]. f_equal; ring. Qed.
(* equal up to twice a vector *)
Definition even_moved (Y : zmat) (u v : zvec) : Prop := exists w, v = zadd (vz u Y) (zadd w w).
Lemma evb_moved X Y u v : zmul Y X = zid -> even_moved Y u v -> evb u = evb v.
Proof.
  intros E (w & ->). apply eq_true_iff_eq. rewrite !evb_true. split.
  - intros (t & ->). exists (zadd (vz t Y) w). rewrite vz_add. destruct (vz t Y), w. unfold zadd. cbn [Base.zx Base.zy Base.zz]. f_equal; ring.
  - intros (t & T). exists (vz (zadd t (zneg w)) X). rewrite <- vz_add. rewrite <- (vz_1 u), <- E, <- vz_mul. f_equal.
    destruct (vz u Y), t, w. unfold zadd, zneg in *. cbn [Base.zx Base.zy Base.zz] in *. injection T as T1 T2 T3. f_equal; lia.
Qed.
Lemma sums_moved Y us vs : Forall2 (fun u v => v = vz u Y \/ v = zneg (vz u Y)) us vs -> Forall2 (even_moved Y) (sums us) (sums vs).
Proof.
  induction 1 as [|u v us vs M _ IH]; cbn [sums].
  - constructor; [|constructor]. exists (Zv 0 0 0). destruct Y. unfold vz, zadd. cbn [Base.zx Base.zy Base.zz Base.z11 Base.z12 Base.z13 Base.z21 Base.z22 Base.z23 Base.z31 Base.z32 Base.z33]. f_equal; ring.
  - apply Forall2_app; [exact IH|]. clear - M IH. induction IH as [|a b l l' (w & ->) _ IH]; cbn [map]; constructor; auto. destruct M as [-> | ->].
    + exists w. rewrite vz_add. destruct (vz u Y), (vz a Y), w. unfold zadd. cbn [Base.zx Base.zy Base.zz]. f_equal; ring.
    + exists (zadd w (zneg (vz u Y))). rewrite vz_add. destruct (vz u Y), (vz a Y), w. unfold zadd, zneg. cbn [Base.zx Base.zy Base.zz]. f_equal; ring.
Qed.
Lemma m3_true u : m3 u = true <-> exists w, u = zadd w (zadd w w).
Proof.
  unfold m3, third. rewrite !andb_true_iff, !Z.eqb_eq. destruct u as [a b c]. cbn [Base.zx Base.zy Base.zz]. split.
  - intros ((A & B) & C). pose proof (Z.div_mod a 3 ltac:(lia)). pose proof (Z.div_mod b 3 ltac:(lia)). pose proof (Z.div_mod c 3 ltac:(lia)). exists (Zv (a / 3) (b / 3) (c / 3)). unfold zadd. cbn [Base.zx Base.zy Base.zz]. f_equal; lia.
  - intros ([x y z] & E). unfold zadd in E. cbn [Base.zx Base.zy Base.zz] in E. injection E as -> -> ->.
    repeat split; [replace (x + (x + x))%Z with (x * 3)%Z by ring|replace (y + (y + y))%Z with (y * 3)%Z by ring|replace (z + (z + z))%Z with (z * 3)%Z by ring]; apply Z_mod_mult.
Qed.
Lemma m3_moved X Y u : zmul Y X = zid -> m3 (vz u Y) = m3 u.
Proof.
  intros E. apply eq_true_iff_eq. rewrite !m3_true. split.
  - intros (t & T). exists (vz t X). rewrite <- !vz_add, <- T, vz_mul, E, vz_1. reflexivity.
  - intros (t & ->). exists (vz t Y). rewrite !vz_add. reflexivity.
Qed.
Lemma m3_neg u : m3 (zneg u) = m3 u.
Proof.
  apply eq_true_iff_eq. rewrite !m3_true. destruct u as [a b c]. unfold zneg, zadd. cbn [Base.zx Base.zy Base.zz].
  split; intros ([x y z] & E); cbn [Base.zx Base.zy Base.zz] in E; injection E as E1 E2 E3; exists (Zv (- x) (- y) (- z)); cbn [Base.zx Base.zy Base.zz]; f_equal; lia.
Qed.
Lemma thirds_moved X Y us vs : zmul Y X = zid -> Forall2 (fun u v => v = vz u Y \/ v = zneg (vz u Y)) us vs -> thirds us = thirds vs.
Proof.
  intros E M. destruct M as [|a a' us vs Ma M]; auto. destruct M as [|b b' us vs Mb M]; auto. destruct M as [|c c' us vs Mc M]; auto. clear M. cbn [thirds].
  assert (NN : forall u, zneg (zneg u) = u) by (intros []; unfold zneg; cbn [Base.zx Base.zy Base.zz]; f_equal; ring).
  assert (NA : forall u v, zadd (zneg u) (zneg v) = zneg (zadd u v)) by (intros [] []; unfold zneg, zadd; cbn [Base.zx Base.zy Base.zz]; f_equal; ring).
  assert (G : forall s t : bool, m3 (zadd (zadd (vz a Y) (if s then vz b Y else zneg (vz b Y))) (if t then vz c Y else zneg (vz c Y))) =
    m3 (zadd (zadd a (if s then b else zneg b)) (if t then c else zneg c))).
  { intros s t. symmetry. rewrite <- (m3_moved X Y) by auto. rewrite !vz_add. destruct s, t; rewrite ?vz_neg; reflexivity. }
  assert (G' : forall s t : bool, m3 (zadd (zadd (zneg (vz a Y)) (if s then vz b Y else zneg (vz b Y))) (if t then vz c Y else zneg (vz c Y))) =
    m3 (zadd (zadd a (if s then zneg b else b)) (if t then zneg c else c))).
  { intros s t. specialize (G (negb s) (negb t)). rewrite <- m3_neg in G. rewrite <- !NA in G. destruct s, t; cbn [negb] in G; rewrite ?NN in G; exact G. }
  pose proof (G true true) as G1. pose proof (G true false) as G2. pose proof (G false true) as G3. pose proof (G false false) as G4.
  pose proof (G' true true) as H1. pose proof (G' true false) as H2. pose proof (G' false true) as H3. pose proof (G' false false) as H4. cbv iota in *. clear G G'.
  destruct Ma as [-> | ->], Mb as [-> | ->], Mc as [-> | ->]; rewrite ?NN, ?G1, ?G2, ?G3, ?G4, ?H1, ?H2, ?H3, ?H4;
    generalize (m3 (zadd (zadd a b) c)) (m3 (zadd (zadd a b) (zneg c))) (m3 (zadd (zadd a (zneg b)) c)) (m3 (zadd (zadd a (zneg b)) (zneg c))); intros [] [] [] []; reflexivity.
Qed.
Definition zplus (a b : zmat) : zmat :=
  (Zm (z11 a + z11 b) (z12 a + z12 b) (z13 a + z13 b) (z21 a + z21 b) (z22 a + z22 b) (z23 a + z23 b) (z31 a + z31 b) (z32 a + z32 b) (z33 a + z33 b))%Z.
Lemma ones_true h : ones h = true <-> exists m, h = zplus zid (zplus m m).
Proof.
  unfold ones. cbv zeta. rewrite all_true. destruct h as [h11 h12 h13 h21 h22 h23 h31 h32 h33]. unfold zsub, zplus, zid.
  cbn [Base.z11 Base.z12 Base.z13 Base.z21 Base.z22 Base.z23 Base.z31 Base.z32 Base.z33]. split.
  - intros H. assert (E : forall x, In x [h11 - 1; h12 - 0; h13 - 0; h21 - 0; h22 - 1; h23 - 0; h31 - 0; h32 - 0; h33 - 1]%Z -> (x = x / 2 + x / 2)%Z).
    { intros x I. specialize (H x I). apply Z.even_spec in H. destruct H as (y & ->). replace (2 * y)%Z with (y * 2)%Z by ring. rewrite Z.div_mul by lia. ring. }
    exists (Zm ((h11 - 1) / 2) ((h12 - 0) / 2) ((h13 - 0) / 2) ((h21 - 0) / 2) ((h22 - 1) / 2) ((h23 - 0) / 2) ((h31 - 0) / 2) ((h32 - 0) / 2) ((h33 - 1) / 2)).
    cbn [Base.z11 Base.z12 Base.z13 Base.z21 Base.z22 Base.z23 Base.z31 Base.z32 Base.z33].
    f_equal; match goal with |- _ = (_ + (?y / 2 + _))%Z => pose proof (E y ltac:(cbn [In]; tauto)); lia end.
  - intros (m & E). pose proof (f_equal Base.z11 E) as E11. pose proof (f_equal Base.z12 E) as E12. pose proof (f_equal Base.z13 E) as E13. pose proof (f_equal Base.z21 E) as E21. pose proof (f_equal Base.z22 E) as E22. pose proof (f_equal Base.z23 E) as E23. pose proof (f_equal Base.z31 E) as E31. pose proof (f_equal Base.z32 E) as E32. pose proof (f_equal Base.z33 E) as E33.
    cbn [Base.z11 Base.z12 Base.z13 Base.z21 Base.z22 Base.z23 Base.z31 Base.z32 Base.z33] in *. clear E. intros x I. apply Z.even_spec. cbn [In] in I.
    destruct I as [<-|I]; [exists (z11 m); lia|]. destruct I as [<-|I]; [exists (z12 m); lia|]. destruct I as [<-|I]; [exists (z13 m); lia|]. destruct I as [<-|I]; [exists (z21 m); lia|]. destruct I as [<-|I]; [exists (z22 m); lia|]. destruct I as [<-|I]; [exists (z23 m); lia|]. destruct I as [<-|I]; [exists (z31 m); lia|]. destruct I as [<-|I]; [exists (z32 m); lia|]. destruct I as [<-|I]; [exists (z33 m); lia|]. destruct I.
Qed.
Lemma ones_conj V h : unimodular V -> ones (conjz V h) = ones h.
Proof.
  intros U. assert (D : forall A B m, zmul A B = zid -> zmul (zmul A (zplus zid (zplus m m))) B = zplus zid (zplus (zmul (zmul A m) B) (zmul (zmul A m) B))).
  { intros A B m E. transitivity (zplus (zmul A B) (zplus (zmul (zmul A m) B) (zmul (zmul A m) B))); [|rewrite E; reflexivity].
    clear E. destruct A, B, m. unfold zplus, zid, zmul. cbn [Base.z11 Base.z12 Base.z13 Base.z21 Base.z22 Base.z23 Base.z31 Base.z32 Base.z33]. f_equal; ring. }
  apply eq_true_iff_eq. rewrite !ones_true. split; intros (m & E).
  - exists (zmul (zmul (Yof V) m) V). rewrite <- D, <- E by auto using Yof_l. unfold conjz. rewrite !zmul_assoc, Yof_l, zmul_1_r by auto.
    rewrite <- zmul_assoc, Yof_l, zmul_1_l by auto. reflexivity.
  - exists (zmul (zmul V m) (Yof V)). rewrite <- D, <- E by auto using Yof_r. reflexivity.
Qed.
Lemma bits_moved V hs us vs : unimodular V -> Forall2 (moved V) us vs -> bits (map (conjz V) hs) vs = bits hs us.
Proof.
  intros U M. unfold bits. rewrite (thirds_moved V (Yof V) us vs (Yof_l V U) M). rewrite map_map. f_equal.
  - pose proof (sums_moved _ _ _ M) as S. clear M. induction S as [|a b l l' E _ IH]; cbn [map]; auto. rewrite IH. f_equal.
    symmetry. apply (evb_moved V (Yof V)); auto using Yof_l.
  - f_equal. apply map_ext. intros h. apply ones_conj, U.
Qed.

(* ---------------- lengths along the axes ---------------- *)
Definition len (m : mat) (u : zvec) : R := dot (vmat (ofZv u) (metric m)) (ofZv u).
Lemma len_moved V m c u v : unimodular V -> metric c = mmul (mmul (ofZ V) (metric m)) (tr (ofZ V)) -> moved V u v -> len c v = len m u.
Proof.
  intros U M MV. assert (E : len c (vz u (Yof V)) = len m u).
  { unfold len. rewrite M. assert (W : ofZv (vz u (Yof V)) = vmat (ofZv u) (ofZ (Yof V))).
    { destruct u, (Yof V). unfold vz, ofZv, ofZ. vunfold. cbn [Base.zx Base.zy Base.zz]. vcomp; rewrite !plus_IZR, !mult_IZR; ring. }
    rewrite W. assert (I : mmul (ofZ (Yof V)) (ofZ V) = mid) by (rewrite <- ofZ_mul, Yof_l by auto; apply ofZ_id).
    revert I. generalize (ofZ (Yof V)) (ofZ V) (ofZv u) (metric m). clear. intros Y X w G I.
    assert (A : forall w a b, vmat (vmat w a) b = vmat w (mmul a b)) by (intros [] [[] [] []] [[] [] []]; vunfold; vcomp; ring).
    assert (B : forall x a y, dot (vmat x a) y = dot x (vmat y (tr a))) by (intros [] [[] [] []] []; vunfold; ring).
    assert (C : forall a : mat, tr (tr a) = a) by (intros [[] [] []]; reflexivity).
    rewrite <- !A, (A w Y X), I. rewrite (B _ (tr X)), C, (A w Y X), I. assert (J : forall w, vmat w mid = w) by (intros []; vunfold; vcomp; ring). rewrite !J. reflexivity. }
  destruct MV as [-> | ->]; [exact E|]. rewrite <- E. unfold len. destruct (vz u (Yof V)) as [a b k], (metric c) as [[] [] []].
  unfold zneg, ofZv. cbn [Base.zx Base.zy Base.zz]. vunfold. rewrite !opp_IZR. ring.
Qed.
Fixpoint wsum (r : list Z) (l : list Z) : Z := match r, l with a :: r', b :: l' => (a * b + wsum r' l')%Z | _, _ => 0%Z end.
Fixpoint rsum (r : list Z) (l : list R) : R := match r, l with a :: r', b :: l' => IZR a * b + rsum r' l' | _, _ => 0 end.
Definition form (r : list Z) (us : list zvec) (gs : list zmat) : list Z := map (fun g => wsum r (map (fun u => zform u u g) us)) gs.
Lemma comb_form m ps gs : metric m = lin ps gs -> forall r us, comb ps (form r us gs) = rsum r (map (len m) us).
Proof.
  intros M. assert (ZZ : comb ps (map (fun _ => 0%Z) gs) = 0).
  { clear M. revert gs. induction ps as [|p ps IH]; intros [|g gs]; cbn [map comb]; auto. rewrite IH. ring. }
  assert (L : forall a (f1 f2 : zmat -> Z), comb ps (map (fun g => a * f1 g + f2 g)%Z gs) = IZR a * comb ps (map f1 gs) + comb ps (map f2 gs)).
  { clear. intros a f1 f2. revert gs. induction ps as [|p ps IH]; intros [|g gs]; cbn [map comb]; try ring. rewrite IH, plus_IZR, mult_IZR. ring. }
  induction r as [|a r IH]; intros [|u us]; cbn [form wsum rsum map]; try exact ZZ.
  unfold form. cbn [wsum map]. rewrite L. unfold form in IH. rewrite IH. unfold len at 2. rewrite M, lin_form. reflexivity.
Qed.

(* ---------------- the check ---------------- *)
Definition words (t : list zmat) : list zmat := match t with a :: b :: _ => t ++ [zmul a b] | _ => t end.
Definition full_of (k : kind) : list zmat := match close 100 (k_gens k) [] with Some l => l | None => [] end.
(* relations between the lengths that the family excludes *)
Definition relations (k : kind) : list (list Z) :=
  let name := f_name (k_fam k) in
  if String.eqb name "TET" then [[1; 0; -1]%Z]
  else if String.eqb name "BCT" then [[1; 0; -1]%Z; [0; 1; -1]%Z]
  else if String.eqb name "RHL" then [[3; 0; -8]%Z; [3; 0; -2]%Z; [6; 0; -1]%Z]
  else if String.eqb name "ORCC" then [[0; -1; 1]%Z; [0; -1; 3]%Z; [0; -3; 1]%Z]
  else if String.eqb (substring 0 3 name) "ORC" then [[1; -1; 0]%Z; [1; 0; -1]%Z; [0; 1; -1]%Z]
  else [].
Definition all_words_good (t : list zmat) : bool := all (fun h => good_axis h (axis_of h)) (words t).
Definition relations_ok (k : kind) : bool :=
  if all_words_good (k_gens k) then
    if all (fun r => existsb (fun n => proportional (form r (map axis_of (words (k_gens k))) (f_gs (k_fam k))) n) (f_nz (k_fam k))) (relations k) then
      all (fun w => all (fun g => zeqb (zmul (zmul w g) (ztr w)) g) (f_gs (k_fam k))) (k_gens k) && all is_two (k_gens k)
    else false
  else false.
Fixpoint tuples (l : list zmat) (n : nat) : list (list zmat) :=
  match n with O => [[]] | S n' => flat_map (fun t => map (fun w => w :: t) l) (tuples l n') end.
Fixpoint zs_eqb (a b : list Z) : bool := match a, b with [], [] => true | x :: a', y :: b' => if (x =? y)%Z then zs_eqb a' b' else false | _, _ => false end.
Fixpoint bs_eqb (a b : list bool) : bool := match a, b with [], [] => true | x :: a', y :: b' => if Bool.eqb x y then bs_eqb a' b' else false | _, _ => false end.
Definition excluded (kf kc : kind) : bool :=
  let W := words (k_gens kf) in let P := pairs W in let B := bits W (map axis_of W) in
  all (fun t => let W' := words t in
    if zs_eqb P (pairs W') then
      if all_words_good t then
        let us := map axis_of W' in
        if bs_eqb B (bits W' us) then existsb (fun r => forallb (Z.eqb 0) (form r us (f_gs (k_fam kc)))) (relations kf) else true
      else false
    else true) (tuples (full_of kc) (length (k_gens kf))).
Lemma kinds_relations : all relations_ok kinds = true.
Proof. vm_compute. reflexivity. Qed.
Lemma kinds_excluded : all (fun kf => all (fun kc => if String.eqb (f_name (k_fam kf)) (f_name (k_fam kc)) then true else excluded kf kc) kinds) kinds = true.
Proof. vm_compute. reflexivity. Qed.

Lemma zs_eqb_refl a : zs_eqb a a = true.
Proof. induction a as [|x a IH]; cbn [zs_eqb]; auto. rewrite Z.eqb_refl. exact IH. Qed.
Lemma bs_eqb_refl a : bs_eqb a a = true.
Proof. induction a as [|x a IH]; cbn [bs_eqb]; auto. rewrite Bool.eqb_reflx. exact IH. Qed.
Lemma in_tuples l t : (forall w, In w t -> In w l) -> In t (tuples l (length t)).
Proof.
  induction t as [|a t IH]; intros H; cbn [length tuples]; [left; reflexivity|]. apply in_flat_map. exists t. split.
  - apply IH. intros w W. apply H. right. exact W.
  - apply in_map_iff. exists a. split; [reflexivity|]. apply H. left. reflexivity.
Qed.
Lemma words_conj V t : unimodular V -> words (map (conjz V) t) = map (conjz V) (words t).
Proof. intros U. destruct t as [|a [|b t]]; auto. cbn [map words]. rewrite map_app. cbn [map]. rewrite conjz_mul by auto. reflexivity. Qed.
Lemma lin_sym : forall ps gs w, all (fun g => zeqb (zmul (zmul w g) (ztr w)) g) gs = true -> mmul (mmul (ofZ w) (lin ps gs)) (tr (ofZ w)) = lin ps gs.
Proof.
  intros ps gs w H. rewrite lin_conj. f_equal. unfold conj_gs. rewrite all_true in H. induction gs as [|g gs IH]; cbn [map]; auto.
  rewrite IH by (intros x X; apply H; right; exact X). f_equal. apply zeqb_true, H. left. reflexivity.
Qed.
Lemma moved_axes V t : unimodular V -> all (fun h => good_axis h (axis_of h)) t = true ->
  all (fun h => good_axis h (axis_of h)) (map (conjz V) t) = true -> Forall2 (moved V) (map axis_of t) (map axis_of (map (conjz V) t)).
Proof.
  intros U. rewrite !all_true. induction t as [|h t IH]; intros A B; cbn [map]; constructor.
  - apply (good_axis_moved V h); auto. { apply A. left. reflexivity. } apply B. left. reflexivity.
  - apply IH; intros x X; [apply A|apply B]; right; exact X.
Qed.
(* a lattice that has the metric of the family of kf in one basis, and all of whose two-fold rotations are those of
   the family of kc in another, belongs to one family only *)
Lemma exclusive kf kc m c V ps ps' : In kf kinds -> In kc kinds -> unimodular V ->
  metric c = mmul (mmul (ofZ V) (metric m)) (tr (ofZ V)) ->
  metric m = lin ps (f_gs (k_fam kf)) -> Forall (fun n => comb ps n <> 0) (f_nz (k_fam kf)) ->
  metric c = lin ps' (f_gs (k_fam kc)) -> (forall w, is_two w = true -> Sym c w -> In w (full_of kc)) ->
  f_name (k_fam kf) = f_name (k_fam kc).
Proof.
  intros If Ic U MV Mm NZ Mc F. pose proof (proj1 (all_true _ _) kinds_relations kf If) as R. pose proof (proj1 (all_true _ _) kinds_excluded kf If) as X.
  cbv beta in X. pose proof (proj1 (all_true _ _) X kc Ic) as E. clear X. cbv beta in E. destruct (String.eqb_spec (f_name (k_fam kf)) (f_name (k_fam kc))) as [|NE]; auto. exfalso.
  unfold relations_ok in R. destruct (all_words_good (k_gens kf)) eqn:G; [|discriminate].
  destruct (all _ (relations kf)) eqn:RR; [|discriminate]. apply andb_true_iff in R. destruct R as (R1 & R2). pose proof (proj1 (all_true _ _) R1) as R1'. pose proof (proj1 (all_true _ _) R2) as R2'. pose proof (proj1 (all_true _ _) RR) as RR'. clear R1 R2 RR. rename R1' into R1. rename R2' into R2. rename RR' into RR.
  set (t := map (conjz V) (k_gens kf)).
  assert (T : In t (tuples (full_of kc) (length (k_gens kf)))).
  { unfold t. rewrite <- (map_length (conjz V)). apply in_tuples. intros w W. apply in_map_iff in W. destruct W as (g & <- & Hg). apply F.
    - rewrite <- (Yof_inv V U). unfold conjz. rewrite (Yof_inv V U). pose proof (is_two_conj (Yof V) g (Yof_unimodular V U) (R2 g Hg)) as T. rewrite (Yof_inv V U) in T. exact T.
    - unfold Sym. rewrite MV. pose proof (R1 g Hg) as S. cbv beta in S. apply (lin_sym ps) in S. rewrite <- Mm in S. unfold conjz. rewrite !ofZ_mul, !tr_mmul.
      assert (I : mmul (ofZ (Yof V)) (ofZ V) = mid) by (rewrite <- ofZ_mul, Yof_l by auto; apply ofZ_id).
      assert (I' : mmul (tr (ofZ V)) (tr (ofZ (Yof V))) = mid) by (rewrite <- tr_mmul, I; reflexivity).
      transitivity (mmul (mmul (ofZ V) (mmul (mmul (ofZ g) (mmul (mmul (mmul (ofZ (Yof V)) (ofZ V)) (metric m)) (mmul (tr (ofZ V)) (tr (ofZ (Yof V)))))) (tr (ofZ g)))) (tr (ofZ V))); [rewrite !mmul_assoc; reflexivity|].
      rewrite I, I', mmul_id_l, mmul_id_r, S. reflexivity. }
  unfold excluded in E. cbv zeta in E. pose proof (proj1 (all_true _ _) E t T) as E'. clear E. rename E' into E. cbv beta in E.
  unfold t in E at 1. rewrite words_conj, pairs_conj, zs_eqb_refl in E by auto. destruct (all_words_good t) eqn:GT; [|discriminate].
  assert (MV' : Forall2 (moved V) (map axis_of (words (k_gens kf))) (map axis_of (words t))).
  { unfold t. rewrite words_conj by auto. apply moved_axes; auto. unfold all_words_good, t in GT. rewrite words_conj in GT by auto. exact GT. }
  assert (B : bits (words t) (map axis_of (words t)) = bits (words (k_gens kf)) (map axis_of (words (k_gens kf)))).
  { unfold t at 1. rewrite words_conj by auto. apply bits_moved; auto. }
  rewrite B, bs_eqb_refl in E. apply existsb_exists in E. destruct E as (r & Hr & Z).
  apply (comb_zero ps') in Z. rewrite (comb_form c ps' _ Mc) in Z.
  specialize (RR r Hr). cbv beta in RR. apply existsb_exists in RR. destruct RR as (n & Hn & P). rewrite Forall_forall in NZ. specialize (NZ n Hn).
  apply (proportional_value ps _ _ P) in NZ. apply NZ. rewrite (comb_form m ps _ Mm). rewrite <- Z. f_equal.
  clear - MV' U MV. induction MV' as [|u v us vs M _ IH]; cbn [map]; auto. rewrite IH, (len_moved V m c u v) by auto. reflexivity.
Qed.
(* the rotations of each set of the table, in the basis of its family *)
Definition entry_full (e : entry) : bool :=
  match nth_error kinds (e_code e) with
  | None => true
  | Some k => let l := full_of k in all (fun w => zmem (conjz (e_X e) w) l) (e_set e)
  end.
Lemma entries_full : all entry_full entries = true.
Proof. vm_compute. reflexivity. Qed.
