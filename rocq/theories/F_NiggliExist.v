(* F_NiggliExist.v : the Niggli loop without tolerance ends for every lattice (C78) *)
From Verif Require Import Base M_Strings M_Numerical F_Numerical M_Geometry F_Geometry M_Niggli S_Niggli F_Niggli F_NiggliQ.
Open Scope R_scope.
Open Scope list_scope.

(* ---------------- finitely many bases below a bound ---------------- *)
Definition irange (n : Z) : list Z := map (fun i => (Z.of_nat i - n)%Z) (seq 0 (Z.to_nat (2 * n + 1))).
Lemma irange_in n x : (Z.abs x <= n)%Z -> In x (irange n).
Proof. intros H. unfold irange. apply in_map_iff. exists (Z.to_nat (x + n)). split; [lia|]. apply in_seq. lia. Qed.
Definition iall (n : Z) : list zmat :=
  let r := irange n in
  flat_map (fun a => flat_map (fun b => flat_map (fun c => flat_map (fun d => flat_map (fun e => flat_map (fun f => flat_map (fun g => flat_map (fun h => map (fun i =>
    Zm a b c d e f g h i) r) r) r) r) r) r) r) r) r.
Lemma iall_in n a b c d e f g h i :
  (Z.abs a <= n -> Z.abs b <= n -> Z.abs c <= n -> Z.abs d <= n -> Z.abs e <= n -> Z.abs f <= n -> Z.abs g <= n -> Z.abs h <= n -> Z.abs i <= n ->
  In (Zm a b c d e f g h i) (iall n))%Z.
Proof.
  intros. unfold iall. cbv zeta. apply in_flat_map; exists a; split; [apply irange_in; auto|]. apply in_flat_map; exists b; split; [apply irange_in; auto|].
  apply in_flat_map; exists c; split; [apply irange_in; auto|]. apply in_flat_map; exists d; split; [apply irange_in; auto|]. apply in_flat_map; exists e; split; [apply irange_in; auto|].
  apply in_flat_map; exists f; split; [apply irange_in; auto|]. apply in_flat_map; exists g; split; [apply irange_in; auto|]. apply in_flat_map; exists h; split; [apply irange_in; auto|].
  apply in_map_iff. exists i. split; [reflexivity|]. apply irange_in; auto.
Qed.
Lemma dot_cs u v : dot u v * dot u v <= dot u u * dot v v.
Proof.
  assert (E : dot u u * dot v v - dot u v * dot u v = dot (cross u v) (cross u v)) by (destruct u, v; vunfold; ring).
  pose proof (dot_self_nonneg (cross u v)). lra.
Qed.
(* integer coefficients of short lattice vectors are bounded *)
Lemma short_bounded cell m : det cell <> 0 -> exists n, forall x y z,
  let v := vmat (ofZv (Zv x y z)) cell in dot v v <= m -> (Z.abs x <= n /\ Z.abs y <= n /\ Z.abs z <= n)%Z.
Proof.
  intros D. destruct cell as [a b c]. set (cell := M3 a b c) in *.
  set (q := (dot (cross b c) (cross b c) + dot (cross c a) (cross c a) + dot (cross a b) (cross a b)) * m / (det cell * det cell) + 1).
  exists (up q). intros x y z. cbv zeta. set (v := vmat (ofZv (Zv x y z)) cell). intros H.
  assert (D2 : 0 < det cell * det cell) by nra. pose proof (dot_self_nonneg v) as V0.
  assert (E1 : dot v (cross b c) = IZR x * det cell) by (subst v; subst cell; clear; destruct a, b, c; unfold ofZv; cbn [zx zy zz]; vunfold; ring).
  assert (E2 : dot v (cross c a) = IZR y * det cell) by (subst v; subst cell; clear; destruct a, b, c; unfold ofZv; cbn [zx zy zz]; vunfold; ring).
  assert (E3 : dot v (cross a b) = IZR z * det cell) by (subst v; subst cell; clear; destruct a, b, c; unfold ofZv; cbn [zx zy zz]; vunfold; ring).
  pose proof (dot_self_nonneg (cross b c)) as P1. pose proof (dot_self_nonneg (cross c a)) as P2. pose proof (dot_self_nonneg (cross a b)) as P3.
  pose proof (dot_cs v (cross b c)) as C1. pose proof (dot_cs v (cross c a)) as C2. pose proof (dot_cs v (cross a b)) as C3. rewrite E1 in C1. rewrite E2 in C2. rewrite E3 in C3.
  assert (G : forall t w, 0 <= w -> w <= dot (cross b c) (cross b c) + dot (cross c a) (cross c a) + dot (cross a b) (cross a b) ->
     IZR t * det cell * (IZR t * det cell) <= dot v v * w -> (Z.abs t <= up q)%Z).
  { intros t w W0 W L. assert (T : IZR t * IZR t <= q - 1).
    { unfold q. replace (_ + 1 - 1) with ((dot (cross b c) (cross b c) + dot (cross c a) (cross c a) + dot (cross a b) (cross a b)) * m / (det cell * det cell)) by ring.
      set (ww := dot (cross b c) (cross b c) + _ + _) in *. apply (Rmult_le_reg_r (det cell * det cell)); auto.
      replace (ww * m / (det cell * det cell) * (det cell * det cell)) with (ww * m) by (field; lra).
      assert (dot v v * w <= ww * m) by nra. nra. }
    destruct (archimed q) as (U & _). apply le_IZR. apply Rle_trans with q; [|lra]. rewrite abs_IZR.
    destruct (Rle_lt_dec (Rabs (IZR t)) 1) as [S|S]; [|assert (Rabs (IZR t) * Rabs (IZR t) = IZR t * IZR t) by (rewrite <- Rabs_mult; apply Rabs_pos_eq; nra); nra].
    assert (0 <= IZR t * IZR t) by nra. lra. }
  split; [|split]; [apply (G x (dot (cross b c) (cross b c)))|apply (G y (dot (cross c a) (cross c a)))|apply (G z (dot (cross a b) (cross a b)))]; lra.
Qed.

Section Exact.
  Variable cell : mat.
  Hypothesis Hd : det cell <> 0.
  Definition basis (p : npar) : Prop := exists k, unimodular k /\ p = cell_params (tcell k cell).

  Lemma basis_pos p : basis p -> 0 < nA p /\ 0 < nB p /\ 0 < nC p.
  Proof. intros (k & U & ->). destruct (cp_pos (tcell k cell) (det_tcell k cell U Hd)) as (A & B & C & _). auto. Qed.
  Lemma basis_step p k m p' : unimodular k -> unimodular m -> p = cell_params (tcell k cell) -> cell_params (tcell m (tcell k cell)) = p' -> basis p'.
  Proof. intros U V _ H. exists (zmul k m). split; [apply unimodular_mul; auto|]. rewrite tcell_mul. auto. Qed.
  Lemma bases_finite m : exists l : list npar, forall p, basis p -> M1 p <= m -> In p l.
  Proof.
    destruct (short_bounded cell m Hd) as (n & N). exists (map (fun k => cell_params (tcell k cell)) (iall n)).
    intros p B L. destruct (basis_pos p B) as (PA & PB & PC). destruct B as (k & U & ->). unfold M1 in L. apply (in_map (fun k => cell_params (tcell k cell))).
    destruct k as [a b c d e f g h i].
    pose proof (N a d g) as N1. pose proof (N b e h) as N2. pose proof (N c f i) as N3. cbv zeta in N1, N2, N3.
    assert (R : tcell (Zm a b c d e f g h i) cell = M3 (vmat (ofZv (Zv a d g)) cell) (vmat (ofZv (Zv b e h)) cell) (vmat (ofZv (Zv c f i)) cell)) by reflexivity.
    rewrite R in *. unfold cell_params in *. cbn [row1 row2 row3 nA nB nC] in *.
    destruct N1 as (? & ? & ?); [lra|]. destruct N2 as (? & ? & ?); [lra|]. destruct N3 as (? & ? & ?); [lra|]. apply iall_in; auto.
  Qed.

  Lemma near_0 x y : near 0 x y <-> x = y.
  Proof. rewrite near_iff. lra. Qed.
  Ltac ex := unfold cond_1, cond_2, cond_5, cond_6, cond_7, cond_8, econd_1, econd_2, econd_5, econd_6, econd_7, econd_8; cbv zeta; rewrite ?near_0, ?Rplus_0_r, ?Rplus_0_l; tauto.
  Lemma e_1 p : cond_1 0 p <-> econd_1 p. Proof. ex. Qed.
  Lemma e_2 p : cond_2 0 p <-> econd_2 p. Proof. ex. Qed.
  Lemma e_5 p : cond_5 0 p <-> econd_5 p. Proof. ex. Qed.
  Lemma e_6 p : cond_6 0 p <-> econd_6 p. Proof. ex. Qed.
  Lemma e_7 p : cond_7 0 p <-> econd_7 p. Proof. ex. Qed.
  Lemma e_8 p : cond_8 0 p <-> econd_8 p. Proof. ex. Qed.

  Lemma after_1_basis p t : basis p -> basis (fst (after_1 p t 0)) /\ lexle p (fst (after_1 p t 0)).
  Proof.
    intros (k & U & E). unfold after_1. destruct (step_1_cases p t 0) as [[C ->]|[C ->]]; cbn [fst].
    - split; [|left; apply lex_1, e_1, C]. apply (basis_step p k mat_1); auto; [left; reflexivity|]. rewrite cp_1, E. reflexivity.
    - split; [exists k; auto|right; auto].
  Qed.
  Lemma signs p : exists i j k, (i = 1 \/ i = -1)%Z /\ (j = 1 \/ j = -1)%Z /\ (k = 1 \/ k = -1)%Z /\
    diag_upd i j k p = if Rltb 0 (nxi p * neta p * nzeta p) then NP (nA p) (nB p) (nC p) (Rabs (nxi p)) (Rabs (neta p)) (Rabs (nzeta p))
                       else NP (nA p) (nB p) (nC p) (- Rabs (nxi p)) (- Rabs (neta p)) (- Rabs (nzeta p)).
  Proof.
    destruct p as [A B C x y z]. cbn [nA nB nC nxi neta nzeta].
    assert (F : forall b x' y' z', (0 < x * y * z -> b = true) -> (x * y * z <= 0 -> b = false) -> x' = Rabs x -> y' = Rabs y -> z' = Rabs z ->
      exists i j k, (i = 1 \/ i = -1)%Z /\ (j = 1 \/ j = -1)%Z /\ (k = 1 \/ k = -1)%Z /\
        diag_upd i j k (NP A B C x y z) = if b : bool then NP A B C x' y' z' else NP A B C (- x') (- y') (- z')).
    { intros b x' y' z' T F X Y Z. unfold diag_upd. cbn [nA nB nC nxi neta nzeta].
      assert (XX : (x' = x /\ 0 <= x) \/ (x' = - x /\ x < 0)) by (rewrite X; unfold Rabs; destruct (Rcase_abs x); lra).
      assert (YY : (y' = y /\ 0 <= y) \/ (y' = - y /\ y < 0)) by (rewrite Y; unfold Rabs; destruct (Rcase_abs y); lra).
      assert (ZZ : (z' = z /\ 0 <= z) \/ (z' = - z /\ z < 0)) by (rewrite Z; unfold Rabs; destruct (Rcase_abs z); lra). clear X Y Z.
      destruct (Rlt_le_dec 0 (x * y * z)) as [P|P].
      - rewrite (T P). clear T F.
        destruct XX as [(-> & X)|(-> & X)], YY as [(-> & Y)|(-> & Y)], ZZ as [(-> & Z)|(-> & Z)];
          try (exfalso; assert (0 <= x * y) by nra; nra); try (exfalso; assert (x * y <= 0) by nra; nra).
        + exists 1%Z, 1%Z, 1%Z. repeat split; auto; cbn [Z.mul Pos.mul]; f_equal; ring.
        + exists (-1)%Z, 1%Z, 1%Z. repeat split; auto; cbn [Z.mul Pos.mul]; f_equal; ring.
        + exists 1%Z, (-1)%Z, 1%Z. repeat split; auto; cbn [Z.mul Pos.mul]; f_equal; ring.
        + exists 1%Z, 1%Z, (-1)%Z. repeat split; auto; cbn [Z.mul Pos.mul]; f_equal; ring.
      - rewrite (F P). clear T F.
        assert (S : (x = 0 \/ y = 0 \/ z = 0) \/ (x <> 0 /\ y <> 0 /\ z <> 0)) by (destruct (Req_dec x 0), (Req_dec y 0), (Req_dec z 0); tauto).
        destruct XX as [(-> & X)|(-> & X)], YY as [(-> & Y)|(-> & Y)], ZZ as [(-> & Z)|(-> & Z)].
        all: try (exists 1%Z, 1%Z, 1%Z; repeat split; auto; cbn [Z.mul Pos.mul]; f_equal; lra).
        all: try (exists (-1)%Z, 1%Z, 1%Z; repeat split; auto; cbn [Z.mul Pos.mul]; f_equal; lra).
        all: try (exists 1%Z, (-1)%Z, 1%Z; repeat split; auto; cbn [Z.mul Pos.mul]; f_equal; lra).
        all: try (exists 1%Z, 1%Z, (-1)%Z; repeat split; auto; cbn [Z.mul Pos.mul]; f_equal; lra).
        all: destruct S as [[S|[S|S]]|(S1 & S2 & S3)]; try lra.
        all: try (exists 1%Z, 1%Z, 1%Z; repeat split; auto; cbn [Z.mul Pos.mul]; f_equal; lra).
        all: try (exists (-1)%Z, 1%Z, 1%Z; repeat split; auto; cbn [Z.mul Pos.mul]; f_equal; lra).
        all: try (exists 1%Z, (-1)%Z, 1%Z; repeat split; auto; cbn [Z.mul Pos.mul]; f_equal; lra).
        all: try (exists 1%Z, 1%Z, (-1)%Z; repeat split; auto; cbn [Z.mul Pos.mul]; f_equal; lra).
        all: exfalso; first [ assert (0 < x * y) by nra; nra | assert (x * y < 0) by nra; nra ]. }
    apply F; auto; intros H; [apply Rltb_true; auto|apply Rltb_false; lra].
  Qed.
  Lemma after_34_basis p t : basis p -> basis (fst (after_34 p t 0)).
  Proof.
    intros (k & U & E). destruct (signs p) as (i & j & l & Hi & Hj & Hl & S).
    assert (G : fst (after_34 p t 0) = diag_upd i j l p).
    { rewrite S. unfold after_34, step_3. destruct (Rltb 0 (nxi p * neta p * nzeta p)) eqn:R.
      - apply Rltb_true in R. rewrite (proj2 (cwt_gt_true _ _ _)) by lra. unfold step_4. cbn [nA nB nC nxi neta nzeta].
        assert (P : cwt (Rabs (nxi p) * Rabs (neta p) * Rabs (nzeta p)) CLe 0 0 = false) by (apply cwt_le_false; rewrite <- !Rabs_mult, Rabs_pos_eq by lra; lra).
        rewrite P. reflexivity.
      - apply Rltb_false in R. rewrite (proj2 (cwt_gt_false _ _ _)) by lra. unfold step_4. rewrite (proj2 (cwt_le_true _ _ _)) by lra.
        destruct (if cwt_default (nxi p) CGt 0 then _ else _) as [i1 q1]. destruct (if cwt_default (neta p) CGt 0 then _ else _) as [j1 q2].
        destruct (if cwt_default (nzeta p) CGt 0 then _ else _) as [k1 q3]. destruct (if (_ <? 0)%Z then _ else _) as [[i2 j2] k2]. reflexivity. }
    rewrite G. apply (basis_step p k (zdiag i j l)); auto; [apply unimodular_diag; auto|]. rewrite cp_diag by auto. rewrite E. reflexivity.
  Qed.
  Lemma uni_shear_5 p : unimodular (mat_5 p). Proof. left. unfold mat_5, zdet. cbn [z11 z12 z13 z21 z22 z23 z31 z32 z33]. ring. Qed.
  Lemma uni_shear_6 p : unimodular (mat_6 p). Proof. left. unfold mat_6, zdet. cbn [z11 z12 z13 z21 z22 z23 z31 z32 z33]. ring. Qed.
  Lemma uni_shear_7 p : unimodular (mat_7 p). Proof. left. unfold mat_7, zdet. cbn [z11 z12 z13 z21 z22 z23 z31 z32 z33]. ring. Qed.

  Lemma pass_basis p t c p' t' : basis p -> pass p t 0 = (c, p', t') -> basis p' /\ (c = true -> lexlt p p').
  Proof.
    intros I E. pose proof (pass_cases p t 0) as P. cbv zeta in P. rewrite E in P.
    destruct (after_1_basis p t I) as [I1 L1]. pose proof (after_1_not_cond p t 0 (Rle_refl 0)) as N1.
    set (p1 := fst (after_1 p t 0)) in *. set (t1 := snd (after_1 p t 0)) in *.
    pose proof (after_34_basis p1 t1 I1) as I4. pose proof (after_34_spec p1 t1 0 (Rle_refl 0)) as S4. cbv zeta in S4.
    set (p4 := fst (after_34 p1 t1 0)) in *. set (t4 := snd (after_34 p1 t1 0)) in *.
    assert (L4 : lexle p p4).
    { apply (lexle_trans p p1); auto. right. unfold M1, Wt. destruct S4 as (-> & -> & -> & -> & -> & -> & _). lra. }
    assert (Sg : signed p4) by apply S4.
    assert (AB : nA p4 <= nB p4).
    { destruct S4 as (-> & -> & _). rewrite e_1 in N1. unfold econd_1 in N1. apply Rnot_lt_le. intros F. apply N1; auto. }
    pose proof (basis_pos _ I4) as (PA & PB & PC).
    destruct P as [[C P]|[(_ & C & P)|[(_ & _ & C & P)|[(_ & _ & _ & C & P)|[(_ & _ & _ & _ & C & P)|
      (C2 & C5 & C6 & C7 & C8 & P)]]]]]; injection P as -> -> ->.
    - apply e_2 in C. split; [|intros _; apply (lexle_lt p p1); auto; apply lex_2; auto].
      destruct I1 as (k & U & Y). apply (basis_step p1 k mat_2); auto; [left; reflexivity|]. rewrite cp_2, <- Y. reflexivity.
    - apply e_5 in C. split; [|intros _; apply (lexle_lt p p4); auto; apply lex_5; auto].
      pose proof (econd_5_nz _ PB C) as NZ. destruct I4 as (k & U & Y). apply (basis_step p4 k (mat_5 p4)); auto using uni_shear_5. rewrite Y in *. apply cp_5; auto.
    - apply e_6 in C. split; [|intros _; apply (lexle_lt p p4); auto; apply lex_6; auto].
      pose proof (econd_6_nz _ PA C) as NZ. destruct I4 as (k & U & Y). apply (basis_step p4 k (mat_6 p4)); auto using uni_shear_6. rewrite Y in *. apply cp_6; auto.
    - apply e_7 in C. split; [|intros _; apply (lexle_lt p p4); auto; apply lex_7; auto].
      pose proof (econd_7_nz _ PA C) as NZ. destruct I4 as (k & U & Y). apply (basis_step p4 k (mat_7 p4)); auto using uni_shear_7. rewrite Y in *. apply cp_7; auto.
    - apply e_8 in C. split; [|intros _; apply (lexle_lt p p4); auto; apply lex_8; auto].
      destruct I4 as (k & U & Y). apply (basis_step p4 k mat_8); auto; [left; reflexivity|]. rewrite cp_8, <- Y. reflexivity.
    - split; [exact I4|discriminate].
  Qed.

  (* number of bases in the list that are below p *)
  Definition ltb (p p' : npar) : bool := if Rlt_dec (M1 p') (M1 p) then true else if Req_EM_T (M1 p') (M1 p) then (if Rlt_dec (Wt p) (Wt p') then true else false) else false.
  Lemma ltb_iff p p' : ltb p p' = true <-> lexlt p p'.
  Proof. unfold ltb, lexlt. destruct (Rlt_dec (M1 p') (M1 p)), (Req_EM_T (M1 p') (M1 p)), (Rlt_dec (Wt p) (Wt p')); intuition (try discriminate; try lra). Qed.
  Definition below (l : list npar) (p : npar) : nat := length (filter (ltb p) l).
  Lemma filter_less {A} (f g : A -> bool) l : (forall x, g x = true -> f x = true) -> (length (filter g l) <= length (filter f l))%nat.
  Proof.
    intros H. induction l as [|x l IH]; cbn; auto. destruct (g x) eqn:G; [rewrite (H x G); cbn; lia|]. destruct (f x); cbn; lia.
  Qed.
  Lemma filter_lt {A} (f g : A -> bool) l x : (forall x, g x = true -> f x = true) -> In x l -> f x = true -> g x = false -> (length (filter g l) < length (filter f l))%nat.
  Proof.
    intros H I F G. induction l as [|y l IH]; [destruct I|]. cbn. destruct I as [->|I].
    - rewrite F, G. cbn. pose proof (filter_less f g l H). lia.
    - specialize (IH I). destruct (g y) eqn:GY; [rewrite (H y GY); cbn; lia|]. destruct (f y); cbn; lia.
  Qed.
  Lemma below_dec l p p' : lexlt p p' -> In p' l -> (below l p' < below l p)%nat.
  Proof.
    intros L I. apply (filter_lt (ltb p) (ltb p') l p'); auto.
    - intros x H. apply ltb_iff in H. apply ltb_iff. unfold lexlt in *. lra.
    - apply ltb_iff; auto.
    - destruct (ltb p' p') eqn:E; auto. apply ltb_iff in E. unfold lexlt in E. lra.
  Qed.
  Lemma loop_ends l m : (forall p, basis p -> M1 p <= m -> In p l) -> forall fuel c mx p t, basis p -> M1 p <= m ->
    (below l p < fuel)%nat -> (c + Z.of_nat (below l p) <= mx)%Z -> exists p' t' n, niggli_loop fuel c mx p t 0 = Ok (p', t', n) /\ basis p' /\ reduced 0 p'.
  Proof.
    intros FIN fuel. induction fuel as [|fuel IH]; intros c mx p t B L LF LM; [lia|]. cbn [niggli_loop]. destruct (Z.ltb_spec mx c) as [F|_]; [lia|].
    destruct (pass p t 0) as [[b p'] t'] eqn:E. destruct (pass_basis p t b p' t' B E) as (B' & D). destruct b.
    - specialize (D eq_refl). assert (L' : M1 p' <= m) by (unfold lexlt in D; lra). pose proof (below_dec l p p' D (FIN p' B' L')) as Q.
      apply IH; auto; lia.
    - exists p', t', (c + 1)%Z. split; [reflexivity|]. split; [exact B'|]. apply (exit_reduced p t 0 p' t'); [lra|exact E].
  Qed.
End Exact.
