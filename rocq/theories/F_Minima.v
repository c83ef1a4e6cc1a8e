(* F_Minima.v : the quadratic form of a reduced set of six numbers, at integer vectors. *)
From Verif Require Import Base M_Niggli S_Niggli F_Niggli.
Open Scope R_scope.

(* Squared length of x a + y b + z c. *)
Definition qf (p : npar) (x y z : R) : R :=
  nA p * x * x + nB p * y * y + nC p * z * z + nxi p * y * z + neta p * x * z + nzeta p * x * y.

(* The number the squared length is to be compared with. *)
Definition level (p : npar) (x y z : Z) : R :=
  if Z.eqb z 0 then if Z.eqb y 0 then nA p else nB p else nC p.

Definition small (a : Z) := (-1 <= a <= 1)%Z.

(* ---------------- all products non-positive ---------------- *)
Record obtuse (p : npar) : Prop := {
  ob_A : 0 < nA p; ob_AB : nA p <= nB p; ob_BC : nB p <= nC p;
  ob_xi : nxi p <= 0; ob_eta : neta p <= 0; ob_zeta : nzeta p <= 0;
  ob_Ae : 0 <= nA p + neta p; ob_Az : 0 <= nA p + nzeta p; ob_Bx : 0 <= nB p + nxi p;
  ob_sum : 0 <= nA p + nB p + nxi p + neta p + nzeta p }.

(* Selling's decomposition: a sum over pairs of four numbers, the last of which is 0. *)
Definition pairs (p : npar) (x y z t : R) : R :=
  - nzeta p / 2 * ((x - y) * (x - y)) + - neta p / 2 * ((x - z) * (x - z)) +
  - nxi p / 2 * ((y - z) * (y - z)) + (nA p + (nzeta p + neta p) / 2) * ((x - t) * (x - t)) +
  (nB p + (nzeta p + nxi p) / 2) * ((y - t) * (y - t)) +
  (nC p + (neta p + nxi p) / 2) * ((z - t) * (z - t)).
Lemma pairs_qf p x y z t : pairs p x y z t = qf p (x - t) (y - t) (z - t).
Proof. unfold pairs, qf. field. Qed.

Definition ind (k a : Z) : Z := if Z.leb k a then 1%Z else 0%Z.
Lemma ind_01 k a : ind k a = 0%Z \/ ind k a = 1%Z.
Proof. unfold ind. destruct (Z.leb k a); auto. Qed.

Lemma ind_pair a b k k' : (k < k')%Z ->
  ((ind k a - ind k b) * (ind k a - ind k b) + (ind k' a - ind k' b) * (ind k' a - ind k' b)
   <= (a - b) * (a - b))%Z.
Proof.
  intros H. unfold ind.
  assert (S0 : (0 <= (a - b) * (a - b))%Z) by apply Z.square_nonneg.
  assert (S1 : (a <> b -> 1 <= (a - b) * (a - b))%Z) by nia.
  assert (S2 : (2 <= a - b \/ a - b <= -2 -> 2 <= (a - b) * (a - b))%Z) by nia.
  remember ((a - b) * (a - b))%Z as s.
  destruct (Z.leb_spec k a), (Z.leb_spec k b), (Z.leb_spec k' a), (Z.leb_spec k' b);
    cbn [Z.sub Z.add Z.mul Z.opp Z.pos_sub Pos.mul Pos.add]; lia.
Qed.
Lemma ind_pair_R a b k k' : (k < k')%Z ->
  (IZR (ind k a) - IZR (ind k b)) * (IZR (ind k a) - IZR (ind k b)) +
  (IZR (ind k' a) - IZR (ind k' b)) * (IZR (ind k' a) - IZR (ind k' b))
  <= (IZR a - IZR b) * (IZR a - IZR b).
Proof.
  intros H. rewrite <- !minus_IZR, <- !mult_IZR, <- plus_IZR. apply IZR_le, ind_pair, H.
Qed.

(* Two thresholds cut the four numbers in two ways, and both cuts are paid for. *)
Lemma pairs_cut p x y z t k k' : obtuse p -> (k < k')%Z ->
  pairs p (IZR (ind k x)) (IZR (ind k y)) (IZR (ind k z)) (IZR (ind k t)) +
  pairs p (IZR (ind k' x)) (IZR (ind k' y)) (IZR (ind k' z)) (IZR (ind k' t))
  <= pairs p (IZR x) (IZR y) (IZR z) (IZR t).
Proof.
  intros [O1 O2 O3 O4 O5 O6 O7 O8 O9 O10] H. unfold pairs.
  assert (P : forall w a b c d e f, 0 <= w -> c * c + d * d <= e * e -> a = w -> b = w -> f = w ->
    a * (c * c) + b * (d * d) <= f * (e * e)).
  { intros; subst. rewrite <- Rmult_plus_distr_l. apply Rmult_le_compat_l; auto. }
  pose proof (P (- nzeta p / 2) _ _ _ _ _ _ ltac:(lra) (ind_pair_R x y k k' H) eq_refl eq_refl eq_refl).
  pose proof (P (- neta p / 2) _ _ _ _ _ _ ltac:(lra) (ind_pair_R x z k k' H) eq_refl eq_refl eq_refl).
  pose proof (P (- nxi p / 2) _ _ _ _ _ _ ltac:(lra) (ind_pair_R y z k k' H) eq_refl eq_refl eq_refl).
  pose proof (P (nA p + (nzeta p + neta p) / 2) _ _ _ _ _ _ ltac:(lra) (ind_pair_R x t k k' H) eq_refl eq_refl eq_refl).
  pose proof (P (nB p + (nzeta p + nxi p) / 2) _ _ _ _ _ _ ltac:(lra) (ind_pair_R y t k k' H) eq_refl eq_refl eq_refl).
  pose proof (P (nC p + (neta p + nxi p) / 2) _ _ _ _ _ _ ltac:(lra) (ind_pair_R z t k k' H) eq_refl eq_refl eq_refl).
  lra.
Qed.

(* The seven cuts. *)
Lemma cut_value p x y z : obtuse p ->
  (x = 0 \/ x = 1)%Z -> (y = 0 \/ y = 1)%Z -> (z = 0 \/ z = 1)%Z ->
  (x <> 0 \/ y <> 0 \/ z <> 0)%Z -> level p x y z <= qf p (IZR x) (IZR y) (IZR z).
Proof.
  intros [O1 O2 O3 O4 O5 O6 O7 O8 O9 O10] [-> | ->] [-> | ->] [-> | ->] N;
    unfold level, qf; cbn [Z.eqb]; try lra. destruct N as [N | [N | N]]; congruence.
Qed.
Lemma level_A p x y z : obtuse p -> nA p <= level p x y z.
Proof. intros [O1 O2 O3 _ _ _ _ _ _ _]. unfold level. destruct (Z.eqb z 0), (Z.eqb y 0); lra. Qed.
Lemma cut_nonneg p x y z : obtuse p ->
  (x = 0 \/ x = 1)%Z -> (y = 0 \/ y = 1)%Z -> (z = 0 \/ z = 1)%Z -> 0 <= qf p (IZR x) (IZR y) (IZR z).
Proof.
  intros O X Y Z. destruct (Z.eq_dec x 0) as [-> | ]; [destruct (Z.eq_dec y 0) as [-> | ]; [destruct (Z.eq_dec z 0) as [-> | ]|]|].
  - unfold qf. lra.
  - pose proof (cut_value p 0 0 z O ltac:(auto) ltac:(auto) Z ltac:(auto)). pose proof (level_A p 0 0 z O).
    pose proof (ob_A p O). lra.
  - pose proof (cut_value p 0 y z O ltac:(auto) Y Z ltac:(auto)). pose proof (level_A p 0 y z O).
    pose proof (ob_A p O). lra.
  - pose proof (cut_value p x y z O X Y Z ltac:(auto)). pose proof (level_A p x y z O).
    pose proof (ob_A p O). lra.
Qed.

Lemma qf_neg p x y z : qf p (- x) (- y) (- z) = qf p x y z.
Proof. unfold qf. ring. Qed.
Lemma level_neg p x y z : level p (- x) (- y) (- z) = level p x y z.
Proof.
  unfold level. destruct (Z.eqb_spec z 0), (Z.eqb_spec y 0), (Z.eqb_spec (- z) 0), (Z.eqb_spec (- y) 0);
    auto; lia.
Qed.

(* First non-zero number from the end positive. *)
Definition leading (x y z : Z) := (0 < z \/ z = 0 /\ (0 < y \/ y = 0 /\ 0 < x))%Z.
Lemma leading_or x y z : (x <> 0 \/ y <> 0 \/ z <> 0)%Z -> leading x y z \/ leading (- x) (- y) (- z).
Proof. unfold leading. lia. Qed.

Lemma obtuse_leading p x y z : obtuse p -> leading x y z ->
  level p x y z <= qf p (IZR x) (IZR y) (IZR z) /\
  (~ (small x /\ small y /\ small z) -> level p x y z + nA p <= qf p (IZR x) (IZR y) (IZR z)).
Proof.
  intros O L.
  assert (E : qf p (IZR x) (IZR y) (IZR z) = pairs p (IZR x) (IZR y) (IZR z) (IZR 0)).
  { rewrite pairs_qf, !Rminus_0_r. reflexivity. }
  assert (V1 : level p x y z <= pairs p (IZR (ind 1 x)) (IZR (ind 1 y)) (IZR (ind 1 z)) (IZR (ind 1 0))).
  { rewrite pairs_qf. change (ind 1 0) with 0%Z. rewrite !Rminus_0_r.
    replace (level p x y z) with (level p (ind 1 x) (ind 1 y) (ind 1 z)).
    - apply cut_value; auto using ind_01. unfold ind. unfold leading in L.
      destruct (Z.leb_spec 1 x), (Z.leb_spec 1 y), (Z.leb_spec 1 z); lia.
    - unfold level, ind. unfold leading in L.
      destruct (Z.leb_spec 1 x), (Z.leb_spec 1 y), (Z.leb_spec 1 z), (Z.eqb_spec z 0), (Z.eqb_spec y 0);
        cbn [Z.eqb]; try reflexivity; lia. }
  split.
  - pose proof (pairs_cut p x y z 0 1 2 O ltac:(lia)) as Cu.
    assert (N : 0 <= pairs p (IZR (ind 2 x)) (IZR (ind 2 y)) (IZR (ind 2 z)) (IZR (ind 2 0))).
    { rewrite pairs_qf. change (ind 2 0) with 0%Z. rewrite !Rminus_0_r. apply cut_nonneg; auto using ind_01. }
    lra.
  - intros B. destruct (Z_lt_dec x 0) as [Hx|Hx]; [|destruct (Z_lt_dec y 0) as [Hy|Hy]].
    3: destruct (Z_lt_dec z 0) as [Hz|Hz]; [unfold leading in L; lia|].
    3: { pose proof (pairs_cut p x y z 0 1 2 O ltac:(lia)) as Cu.
      assert (N : nA p <= pairs p (IZR (ind 2 x)) (IZR (ind 2 y)) (IZR (ind 2 z)) (IZR (ind 2 0))).
      { rewrite pairs_qf. change (ind 2 0) with 0%Z. rewrite !Rminus_0_r.
        eapply Rle_trans; [apply (level_A p (ind 2 x) (ind 2 y) (ind 2 z)); auto|].
        apply cut_value; auto using ind_01. unfold ind, small in *.
        destruct (Z.leb_spec 2 x), (Z.leb_spec 2 y), (Z.leb_spec 2 z); lia. }
      lra. }
    all: pose proof (pairs_cut p x y z 0 0 1 O ltac:(lia)) as Cu;
      assert (N : nA p <= pairs p (IZR (ind 0 x)) (IZR (ind 0 y)) (IZR (ind 0 z)) (IZR (ind 0 0)));
      [|lra];
      rewrite pairs_qf; change (ind 0 0) with 1%Z; rewrite <- !minus_IZR; rewrite <- qf_neg, <- !opp_IZR;
      assert (I : forall a, (- (ind 0 a - 1) = 0 \/ - (ind 0 a - 1) = 1)%Z)
        by (intros a; unfold ind; destruct (Z.leb 0 a); lia);
      (eapply Rle_trans; [apply (level_A p (- (ind 0 x - 1)) (- (ind 0 y - 1)) (- (ind 0 z - 1))); auto|]);
      apply cut_value; auto; unfold ind;
      destruct (Z.leb_spec 0 x), (Z.leb_spec 0 y), (Z.leb_spec 0 z); lia.
Qed.

Lemma obtuse_min p x y z : obtuse p -> (x <> 0 \/ y <> 0 \/ z <> 0)%Z ->
  level p x y z <= qf p (IZR x) (IZR y) (IZR z) /\
  (~ (small x /\ small y /\ small z) -> level p x y z + nA p <= qf p (IZR x) (IZR y) (IZR z)).
Proof.
  intros O N. destruct (leading_or x y z N) as [L | L]; [apply obtuse_leading; auto|].
  apply (obtuse_leading p) in L; auto. rewrite !opp_IZR, qf_neg, level_neg in L.
  destruct L as [L1 L2]. split; auto. intros B. apply L2. unfold small in *. lia.
Qed.

(* ---------------- all products positive ---------------- *)
Record acute (p : npar) : Prop := {
  ac_A : 0 < nA p; ac_AB : nA p <= nB p; ac_BC : nB p <= nC p;
  ac_xi : 0 < nxi p; ac_eta : 0 < neta p; ac_zeta : 0 < nzeta p;
  ac_Ae : neta p <= nA p; ac_Az : nzeta p <= nA p; ac_Bx : nxi p <= nB p }.

Lemma Zsq_R a : IZR a * IZR a = IZR (a * a).
Proof. rewrite mult_IZR. reflexivity. Qed.
Lemma acute_same p x y z : acute p -> (x <> 0 \/ y <> 0 \/ z <> 0)%Z ->
  (0 <= x * y)%Z -> (0 <= x * z)%Z -> (0 <= y * z)%Z ->
  level p x y z <= qf p (IZR x) (IZR y) (IZR z) /\
  (~ (small x /\ small y /\ small z) -> level p x y z + nA p <= qf p (IZR x) (IZR y) (IZR z)).
Proof.
  intros [O1 O2 O3 O4 O5 O6 O7 O8 O9] N Hxy Hxz Hyz.
  assert (Q : nA p * IZR (x * x) + nB p * IZR (y * y) + nC p * IZR (z * z) <= qf p (IZR x) (IZR y) (IZR z)).
  { unfold qf. rewrite !Rmult_assoc, !Zsq_R, <- !mult_IZR.
    assert (forall w a, 0 < w -> (0 <= a)%Z -> 0 <= w * IZR a).
    { intros. apply Rmult_le_pos; [lra|]. apply IZR_le; auto. }
    pose proof (H (nxi p) (y * z)%Z O4 Hyz). pose proof (H (neta p) (x * z)%Z O5 Hxz).
    pose proof (H (nzeta p) (x * y)%Z O6 Hxy). lra. }
  assert (S : forall a : Z, 0 <= IZR (a * a)) by (intros a; apply IZR_le; nia).
  assert (S1 : forall a : Z, a <> 0%Z -> 1 <= IZR (a * a)) by (intros a Ha; apply IZR_le; nia).
  assert (S4 : forall a : Z, ~ small a -> 4 <= IZR (a * a)) by (intros a Ha; unfold small in Ha; apply IZR_le; nia).
  pose proof (S x). pose proof (S y). pose proof (S z).
  assert (PA : 0 <= nA p * IZR (x * x)) by (apply Rmult_le_pos; lra).
  assert (PB : 0 <= nB p * IZR (y * y)) by (apply Rmult_le_pos; lra).
  assert (PC : 0 <= nC p * IZR (z * z)) by (apply Rmult_le_pos; lra).
  assert (G1 : forall w a, 0 < w -> a <> 0%Z -> w <= w * IZR (a * a)).
  { intros w a Hw Ha. specialize (S1 a Ha). nra. }
  assert (G4 : forall w a, 0 < w -> ~ small a -> 4 * w <= w * IZR (a * a)).
  { intros w a Hw Ha. specialize (S4 a Ha). nra. }
  split; [|intros B; assert (B' : ~ small x \/ ~ small y \/ ~ small z) by (unfold small in *; lia); clear B];
    unfold level; destruct (Z.eqb_spec z 0) as [Ez|Ez]; [destruct (Z.eqb_spec y 0) as [Ey|Ey]| |destruct (Z.eqb_spec y 0) as [Ey|Ey]|].
  - pose proof (G1 (nA p) x ltac:(lra) ltac:(lia)). lra.
  - pose proof (G1 (nB p) y ltac:(lra) Ey). lra.
  - pose proof (G1 (nC p) z ltac:(lra) Ez). lra.
  - assert (Bx : ~ small x) by (unfold small in *; lia). pose proof (G4 (nA p) x ltac:(lra) Bx). lra.
  - pose proof (G1 (nB p) y ltac:(lra) Ey). destruct B' as [B|[B|B]].
    + pose proof (G4 (nA p) x ltac:(lra) B). lra.
    + pose proof (G4 (nB p) y ltac:(lra) B). lra.
    + unfold small in B. lia.
  - pose proof (G1 (nC p) z ltac:(lra) Ez). destruct B' as [B|[B|B]].
    + pose proof (G4 (nA p) x ltac:(lra) B). lra.
    + pose proof (G4 (nB p) y ltac:(lra) B). lra.
    + pose proof (G4 (nC p) z ltac:(lra) B). lra.
Qed.

(* A vector whose three numbers have mixed signs is longer than in a cell with non-positive products. *)
Lemma obtuse_of p p' x y z x' y' z' : obtuse p' -> nA p' = nA p -> nB p' = nB p -> nC p' = nC p ->
  (x' = x \/ x' = - x)%Z -> (y' = y \/ y' = - y)%Z -> (z' = z \/ z' = - z)%Z ->
  qf p' (IZR x') (IZR y') (IZR z') <= qf p (IZR x) (IZR y) (IZR z) ->
  (x <> 0 \/ y <> 0 \/ z <> 0)%Z ->
  level p x y z <= qf p (IZR x) (IZR y) (IZR z) /\
  (~ (small x /\ small y /\ small z) -> level p x y z + nA p <= qf p (IZR x) (IZR y) (IZR z)).
Proof.
  intros O EA EB EC Hx Hy Hz Q N.
  destruct (obtuse_min p' x' y' z' O ltac:(lia)) as [M1 M2].
  assert (L : level p' x' y' z' = level p x y z).
  { unfold level. rewrite EA, EB, EC.
    destruct (Z.eqb_spec z 0), (Z.eqb_spec y 0), (Z.eqb_spec z' 0), (Z.eqb_spec y' 0); auto; lia. }
  rewrite L, EA in *. split; [lra|]. intros B.
  assert (B' : ~ (small x' /\ small y' /\ small z')) by (unfold small in *; lia).
  specialize (M2 B'). lra.
Qed.
Lemma acute_min p x y z : acute p -> (x <> 0 \/ y <> 0 \/ z <> 0)%Z ->
  level p x y z <= qf p (IZR x) (IZR y) (IZR z) /\
  (~ (small x /\ small y /\ small z) -> level p x y z + nA p <= qf p (IZR x) (IZR y) (IZR z)).
Proof.
  intros O N. pose proof O as [O1 O2 O3 O4 O5 O6 O7 O8 O9].
  assert (D : (0 <= x * y /\ 0 <= x * z /\ 0 <= y * z \/ 0 <= y * z /\ x * y <= 0 /\ x * z <= 0 \/
               0 <= x * z /\ x * y <= 0 /\ y * z <= 0 \/ 0 <= x * y /\ x * z <= 0 /\ y * z <= 0)%Z).
  { destruct (Z_le_dec 0 x), (Z_le_dec 0 y), (Z_le_dec 0 z); nia. }
  assert (R0 : forall w a, 0 < w -> (0 <= a)%Z -> 0 <= w * IZR a).
  { intros. apply Rmult_le_pos; [lra|]. apply IZR_le; auto. }
  destruct D as [(D1 & D2 & D3)|[(D1 & D2 & D3)|[(D1 & D2 & D3)|(D1 & D2 & D3)]]].
  - apply acute_same; auto.
  - apply (obtuse_of p (NP (nA p) (nB p) (nC p) 0 (- neta p) (- nzeta p)) x y z (- x) y z); auto.
    + constructor; cbn; lra.
    + unfold qf; cbn. rewrite opp_IZR. pose proof (R0 (nxi p) (y * z)%Z O4 D1). rewrite mult_IZR in *. lra.
  - apply (obtuse_of p (NP (nA p) (nB p) (nC p) (- nxi p) 0 (- nzeta p)) x y z x (- y) z); auto.
    + constructor; cbn; lra.
    + unfold qf; cbn. rewrite opp_IZR. pose proof (R0 (neta p) (x * z)%Z O5 D1). rewrite mult_IZR in *. lra.
  - apply (obtuse_of p (NP (nA p) (nB p) (nC p) (- nxi p) (- neta p) 0) x y z x y (- z)); auto.
    + constructor; cbn; lra.
    + unfold qf; cbn. rewrite opp_IZR. pose proof (R0 (nzeta p) (x * y)%Z O6 D1). rewrite mult_IZR in *. lra.
Qed.

(* ---------------- reduced sets ---------------- *)
Lemma near0 x y : x = y -> near 0 x y.
Proof. intros ->. unfold near. rewrite Rminus_diag_eq, Rabs_R0; auto. lra. Qed.
Lemma abs_le a b : Rabs a <= b -> - b <= a <= b.
Proof. unfold Rabs. destruct (Rcase_abs a); lra. Qed.
Lemma reduced_shape p : reduced 0 p -> 0 < nA p -> obtuse p \/ acute p.
Proof.
  intros [R1 R2 R3 R4 R5 R6 R7 R8 R9 R10 R11 R12 R13 R14 R15 R16] P.
  apply abs_le in R6. apply abs_le in R7. apply abs_le in R8.
  destruct R5 as [R5|R5]; [right|left]; constructor; lra.
Qed.
Lemma reduced_min p x y z : reduced 0 p -> 0 < nA p -> (x <> 0 \/ y <> 0 \/ z <> 0)%Z ->
  level p x y z <= qf p (IZR x) (IZR y) (IZR z) /\
  (~ (small x /\ small y /\ small z) -> level p x y z + nA p <= qf p (IZR x) (IZR y) (IZR z)).
Proof.
  intros R P N. destruct (reduced_shape p R P); [apply obtuse_min|apply acute_min]; auto.
Qed.
