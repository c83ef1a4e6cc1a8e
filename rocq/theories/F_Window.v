(* F_Window.v : the points next to the origin decide the Wigner-Seitz cell of a reduced basis (property C15). *)
From Verif Require Import Base S_Zone F_Niggli.
From Coq Require Import Lra Lia.
Open Scope R_scope.

(* |w|^2 - 2 x.w : not negative when x is at least as close to the origin as to w *)
Definition excess (x w : vec) : R := dot w w - 2 * dot x w.
Definition comb (a b c : vec) (i j k : R) : vec := vadd (vscale i a) (vadd (vscale j b) (vscale k c)).
Definition comb4 (v0 v1 v2 v3 : vec) (i j k l : R) : vec := vadd (vscale i v0) (comb v1 v2 v3 j k l).

Lemma excess_dist x w : dist2 x vzero <= dist2 x w <-> 0 <= excess x w.
Proof. unfold dist2, excess. vdestruct. vunfold. split; intros; lra. Qed.

Definition bit (b : bool) : R := if b then 1 else 0.
(* Selling: sums of the vectors of an obtuse superbase decide. *)
Lemma superbase v0 v1 v2 v3 x :
  vadd v0 (vadd v1 (vadd v2 v3)) = vzero ->
  dot v0 v1 <= 0 -> dot v0 v2 <= 0 -> dot v0 v3 <= 0 -> dot v1 v2 <= 0 -> dot v1 v3 <= 0 -> dot v2 v3 <= 0 ->
  (forall p q r s, 0 <= excess x (comb4 v0 v1 v2 v3 (bit p) (bit q) (bit r) (bit s))) ->
  forall i j k l : nat, 0 <= excess x (comb4 v0 v1 v2 v3 (INR i) (INR j) (INR k) (INR l)).
Proof.
  intros Z D01 D02 D03 D12 D13 D23 H.
  assert (Z0 : v0 = vneg (vadd v1 (vadd v2 v3))).
  { destruct v0, v1, v2, v3. unfold vadd, vzero, vneg in *. cbn in *. injection Z as A B C. f_equal; lra. }
  enough (M : forall n i j k l : nat, (i + j + k + l <= n)%nat -> 0 <= excess x (comb4 v0 v1 v2 v3 (INR i) (INR j) (INR k) (INR l))).
  { intros. eapply M; reflexivity. }
  induction n as [|n IH]; intros i j k l L.
  - assert (i = 0 /\ j = 0 /\ k = 0 /\ l = 0)%nat as (-> & -> & -> & ->) by lia. cbn [INR].
    apply (H false false false false).
  - assert (Q : forall (m : nat) d, d <= 0 -> 0 <= INR m * - d) by (intros; apply Rmult_le_pos; [apply pos_INR|lra]).
    destruct i as [|i], j as [|j], k as [|k], l as [|l]; [apply (IH 0 0 0 0)%nat; lia|..];
    match goal with |- 0 <= excess _ (comb4 _ _ _ _ ?I ?J ?K ?L) =>
      let t v := match v with INR (S _) => constr:(true) | _ => constr:(false) end in
      let m v := match v with INR (S ?u) => constr:(u) | _ => constr:(0%nat) end in
      let p := t I in let q := t J in let r := t K in let s := t L in
      let i' := m I in let j' := m J in let k' := m K in let l' := m L in
      pose proof (IH i' j' k' l' ltac:(lia)) as A; pose proof (H p q r s) as B;
      pose proof (Q i' _ D01); pose proof (Q i' _ D02); pose proof (Q i' _ D03);
      pose proof (Q j' _ D01); pose proof (Q j' _ D12); pose proof (Q j' _ D13);
      pose proof (Q k' _ D02); pose proof (Q k' _ D12); pose proof (Q k' _ D23);
      pose proof (Q l' _ D03); pose proof (Q l' _ D13); pose proof (Q l' _ D23)
    end; rewrite ?S_INR; clear IH H Q D01 D02 D03 D12 D13 D23; cbn [bit INR] in *;
    repeat match goal with |- context[INR ?u] => generalize dependent (INR u); intros end;
    subst v0; clear Z; destruct v1 as [a1 a2 a3], v2 as [b1 b2 b3], v3 as [c1 c2 c3], x as [x1 x2 x3]; unfold excess, comb4, comb, vneg, vadd, vscale, dot in *; cbn [Base.vx Base.vy Base.vz] in *; lra.
Qed.

Lemma superbase_Z v1 v2 v3 x :
  let v0 := vneg (vadd v1 (vadd v2 v3)) in
  dot v0 v1 <= 0 -> dot v0 v2 <= 0 -> dot v0 v3 <= 0 -> dot v1 v2 <= 0 -> dot v1 v3 <= 0 -> dot v2 v3 <= 0 ->
  (forall p q r s, 0 <= excess x (comb4 v0 v1 v2 v3 (bit p) (bit q) (bit r) (bit s))) ->
  forall i j k : Z, 0 <= excess x (comb v1 v2 v3 (IZR i) (IZR j) (IZR k)).
Proof.
  intros v0 D01 D02 D03 D12 D13 D23 H i j k.
  assert (ZZ : vadd v0 (vadd v1 (vadd v2 v3)) = vzero).
  { unfold v0. destruct v1, v2, v3. unfold vadd, vneg, vzero; cbn. f_equal; ring. }
  set (m := Z.max 0 (Z.max (- i) (Z.max (- j) (- k)))).
  pose proof (superbase v0 v1 v2 v3 x ZZ D01 D02 D03 D12 D13 D23 H (Z.to_nat m) (Z.to_nat (i + m)) (Z.to_nat (j + m)) (Z.to_nat (k + m))) as A.
  rewrite !INR_IZR_INZ, !Z2Nat.id, !plus_IZR in A by (unfold m; lia).
  replace (comb4 v0 v1 v2 v3 (IZR m) (IZR i + IZR m) (IZR j + IZR m) (IZR k + IZR m)) with (comb v1 v2 v3 (IZR i) (IZR j) (IZR k)) in A; [exact A|].
  unfold v0, comb4, comb. destruct v1, v2, v3. unfold vadd, vscale, vneg; cbn. f_equal; ring.
Qed.

(* x is at least as close to the origin as to the points with coefficients -1, 0, 1 *)
Definition near26 (a b c x : vec) : Prop :=
  forall i j k : Z, (-1 <= i <= 1)%Z -> (-1 <= j <= 1)%Z -> (-1 <= k <= 1)%Z -> 0 <= excess x (comb a b c (IZR i) (IZR j) (IZR k)).
Definition near_all (a b c x : vec) : Prop := forall i j k : Z, 0 <= excess x (comb a b c (IZR i) (IZR j) (IZR k)).
Definition pairwise3 (a b c : vec) : Prop := pair_reduced a b /\ pair_reduced a c /\ pair_reduced b c.

Ltac vec_eq := unfold comb4, comb, vneg, vadd, vscale, vsub; repeat match goal with v : vec |- _ => destruct v end; cbn; f_equal; ring.

Lemma obtuse a b c x : pairwise3 a b c -> dot a b <= 0 -> dot a c <= 0 -> dot b c <= 0 -> near26 a b c x -> near_all a b c x.
Proof.
  intros ((A1 & A2) & (B1 & B2) & (C1 & C2)) X Y W H. rewrite Rabs_left1 in A1, A2, B1, B2, C1, C2 by auto.
  assert (E : forall w, dot (vneg (vadd a (vadd b c))) w = - dot a w - dot b w - dot c w) by (intros; destruct a, b, c, w; unfold vneg, vadd, dot; cbn; ring).
  assert (S : forall u w, dot u w = dot w u) by (intros; destruct u, w; unfold dot; cbn; ring).
  unfold near_all. apply superbase_Z; rewrite ?E, ?(S b a), ?(S c a), ?(S c b); try lra.
  intros p q r s.
  pose proof (H (Z.b2z q - Z.b2z p) (Z.b2z r - Z.b2z p) (Z.b2z s - Z.b2z p))%Z as Q.
  replace (comb4 _ a b c (bit p) (bit q) (bit r) (bit s)) with (comb a b c (IZR (Z.b2z q - Z.b2z p)) (IZR (Z.b2z r - Z.b2z p)) (IZR (Z.b2z s - Z.b2z p))).
  - apply Q; destruct p, q, r, s; cbn; lia.
  - destruct p, q, r, s; cbn [bit Z.b2z]; clear; vec_eq.
Qed.

(* all products positive, the first smallest: superbase -a, b, c - b, a - c *)
Lemma acute a b c x : pairwise3 a b c -> 0 <= dot a b -> dot a b <= dot a c -> dot a b <= dot b c -> near26 a b c x -> near_all a b c x.
Proof.
  intros ((A1 & A2) & (B1 & B2) & (C1 & C2)) X Y W H. rewrite Rabs_right in A1, A2, B1, B2, C1, C2 by lra.
  set (v1 := vneg a). set (v3 := vsub c b).
  assert (E0 : vneg (vadd v1 (vadd b v3)) = vsub a c) by (unfold v1, v3; clear; vec_eq).
  assert (D : forall i j k : Z, 0 <= excess x (comb v1 b v3 (IZR i) (IZR j) (IZR k))).
  { apply superbase_Z; rewrite ?E0.
    1-6: unfold v1, v3; clear H E0; destruct a, b, c; unfold vneg, vsub, dot in *; cbn [Base.vx Base.vy Base.vz] in *; lra.
    intros p q r s.
    set (i := (Z.b2z p - Z.b2z q)%Z). set (j := (Z.b2z r - Z.b2z s)%Z). set (k := (Z.b2z s - Z.b2z p)%Z).
    replace (comb4 (vsub a c) v1 b v3 (bit p) (bit q) (bit r) (bit s)) with (comb a b c (IZR i) (IZR j) (IZR k)).
    - apply H; unfold i, j, k; destruct p, q, r, s; cbn; lia.
    - unfold i, j, k, v1, v3. destruct p, q, r, s; cbn [bit Z.b2z]; clear; vec_eq. }
  intros i j k. specialize (D (- i)%Z (j + k)%Z k).
  assert (E : comb a b c (IZR i) (IZR j) (IZR k) = comb v1 b v3 (IZR (- i)) (IZR (j + k)) (IZR k))
    by (unfold v1, v3; rewrite opp_IZR, plus_IZR; clear; vec_eq).
  rewrite E. exact D.
Qed.

(* permutations and changes of sign *)
Lemma pair_sym u v : pair_reduced u v -> pair_reduced v u.
Proof. unfold pair_reduced. replace (dot v u) with (dot u v) by (destruct u, v; unfold dot; cbn; ring). tauto. Qed.
Lemma pair_neg u v : pair_reduced u v -> pair_reduced (vneg u) v.
Proof.
  unfold pair_reduced. replace (dot (vneg u) v) with (- dot u v) by (destruct u, v; unfold dot; cbn; ring).
  replace (dot (vneg u) (vneg u)) with (dot u u) by (destruct u; unfold dot; cbn; ring). rewrite Rabs_Ropp. tauto.
Qed.
Lemma swap12 a b c x : (near26 b a c x -> near_all b a c x) -> near26 a b c x -> near_all a b c x.
Proof.
  intros P H i j k. assert (E : forall a b c i j k, comb a b c i j k = comb b a c j i k) by (clear; intros; vec_eq).
  rewrite E. apply P. intros p q r ? ? ?. rewrite E. apply H; lia.
Qed.
Lemma swap13 a b c x : (near26 c b a x -> near_all c b a x) -> near26 a b c x -> near_all a b c x.
Proof.
  intros P H i j k. assert (E : forall a b c i j k, comb a b c i j k = comb c b a k j i) by (clear; intros; vec_eq).
  rewrite E. apply P. intros p q r ? ? ?. rewrite E. apply H; lia.
Qed.
Lemma flip1 a b c x : (near26 (vneg a) b c x -> near_all (vneg a) b c x) -> near26 a b c x -> near_all a b c x.
Proof.
  intros P H i j k.
  assert (E : forall i j k, comb a b c (IZR i) (IZR j) (IZR k) = comb (vneg a) b c (IZR (- i)) (IZR j) (IZR k)) by (intros; rewrite opp_IZR; clear; vec_eq).
  rewrite E. apply P. intros p q r ? ? ?. replace p with (- - p)%Z by lia. rewrite <- E. apply H; lia.
Qed.
Lemma pw12 a b c : pairwise3 a b c -> pairwise3 b a c.
Proof. intros (A & B & C). split; [apply pair_sym; auto|auto]. Qed.
Lemma pw13 a b c : pairwise3 a b c -> pairwise3 c b a.
Proof. intros (A & B & C). split; [|split]; apply pair_sym; auto. Qed.
Lemma pw1 a b c : pairwise3 a b c -> pairwise3 (vneg a) b c.
Proof. intros (A & B & C). split; [apply pair_neg; auto|]. split; [apply pair_neg; auto|auto]. Qed.
Lemma dot_neg u v : dot (vneg u) v = - dot u v.
Proof. destruct u, v; unfold dot; cbn; ring. Qed.
Lemma dot_sym u v : dot u v = dot v u.
Proof. destruct u, v; unfold dot; cbn; ring. Qed.

Lemma acute_any a b c x : pairwise3 a b c -> 0 <= dot a b -> 0 <= dot a c -> 0 <= dot b c -> near26 a b c x -> near_all a b c x.
Proof.
  intros P X Y Z.
  destruct (Rle_dec (dot a b) (dot a c)), (Rle_dec (dot a b) (dot b c)), (Rle_dec (dot a c) (dot b c));
    try (apply acute; auto; lra).
  (* a.c smallest *)
  all: try (apply swap12, swap13, swap12, acute; [apply pw12, pw13, pw12|..]; rewrite ?(dot_sym c b), ?(dot_sym c a), ?(dot_sym b a); auto; lra).
  (* b.c smallest *)
  all: try (apply swap13, acute; [apply pw13|..]; rewrite ?(dot_sym c b), ?(dot_sym c a), ?(dot_sym b a); auto; lra).
Qed.

Lemma two_signs a b c x : pairwise3 a b c -> 0 <= dot a c -> 0 <= dot b c -> near26 a b c x -> near_all a b c x.
Proof.
  intros P Y Z. destruct (Rle_dec 0 (dot a b)); [apply acute_any; auto|].
  (* flip c: all negative *)
  apply swap13, flip1, obtuse; [apply pw1, pw13; auto|..]; rewrite ?dot_neg, ?(dot_sym c b), ?(dot_sym c a), ?(dot_sym b a); lra.
Qed.
Theorem reduced_near a b c x : pairwise3 a b c -> near26 a b c x -> near_all a b c x.
Proof.
  intros P. destruct (Rle_dec 0 (dot a c)), (Rle_dec 0 (dot b c)).
  - apply two_signs; auto.
  - apply swap12, flip1, swap12, two_signs; [apply pw12, pw1, pw12; auto|..]; rewrite ?dot_neg; lra.
  - apply flip1, two_signs; [apply pw1; auto|..]; rewrite ?dot_neg; lra.
  - apply swap13, flip1, swap13, two_signs; [apply pw13, pw1, pw13; auto|..]; rewrite ?(dot_sym _ (vneg c)), ?dot_neg, ?(dot_sym c); lra.
Qed.
