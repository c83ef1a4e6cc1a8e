(* F_Niggli.v : lemmas about the Niggli loop *)
From Verif Require Import Base M_Strings M_Numerical F_Numerical M_Geometry F_Geometry M_Niggli S_Niggli.
Open Scope R_scope.

Definition unimodular (k : zmat) := zdet k = 1%Z \/ zdet k = (-1)%Z.

Lemma unimodular_mul a b : unimodular a -> unimodular b -> unimodular (zmul a b).
Proof. unfold unimodular. rewrite zdet_mul. intros [-> | ->] [-> | ->]; lia. Qed.

Lemma unimodular_diag i j k :
  (i = 1 \/ i = -1)%Z -> (j = 1 \/ j = -1)%Z -> (k = 1 \/ k = -1)%Z -> unimodular (zdiag i j k).
Proof. intros [-> | ->] [-> | ->] [-> | ->]; unfold unimodular; cbn; lia. Qed.

Ltac step_uni := intros; repeat match goal with
  | |- context [if ?b then _ else _] => destruct b end;
  cbn [fst snd]; auto; apply unimodular_mul; auto; try (unfold unimodular; cbn; lia).

Lemma step_1_uni p t e : unimodular t -> unimodular (snd (step_1 p t e)).
Proof. unfold step_1; step_uni. Qed.
Lemma step_2_uni p t e : unimodular t -> unimodular (snd (step_2 p t e)).
Proof. unfold step_2; step_uni. Qed.
Lemma step_3_uni p t e : unimodular t -> unimodular (snd (step_3 p t e)).
Proof. unfold step_3; step_uni. Qed.
Lemma step_4_uni p t e : unimodular t -> unimodular (snd (step_4 p t e)).
Proof.
  unfold step_4; intros H. destruct (cwt _ CLe _ _); cbn [fst snd]; auto.
  destruct (cwt_default (nxi p) CGt 0), (cwt_default (nxi p) CLt 0);
  destruct (cwt_default (neta p) CGt 0), (cwt_default (neta p) CLt 0);
  destruct (cwt_default (nzeta p) CGt 0), (cwt_default (nzeta p) CLt 0);
  cbn; apply unimodular_mul; auto; unfold unimodular; cbn; lia.
Qed.
Lemma step_5_uni p t e : unimodular t -> unimodular (snd (step_5 p t e)).
Proof. unfold step_5, sgn; step_uni. Qed.
Lemma step_6_uni p t e : unimodular t -> unimodular (snd (step_6 p t e)).
Proof. unfold step_6, sgn; step_uni. Qed.
Lemma step_7_uni p t e : unimodular t -> unimodular (snd (step_7 p t e)).
Proof. unfold step_7, sgn; step_uni. Qed.
Lemma step_8_uni p t e : unimodular t -> unimodular (snd (step_8 p t e)).
Proof. unfold step_8; step_uni. Qed.

Lemma pass_uni p t e : unimodular t -> unimodular (snd (pass p t e)).
Proof.
  intros H. unfold pass.
  pose proof (step_1_uni p t e H) as H1. destruct (step_1 p t e) as [[c1 p1] t1]; cbn [snd] in H1.
  pose proof (step_2_uni p1 t1 e H1) as H2. destruct (step_2 p1 t1 e) as [[c2 p2] t2]; cbn [snd] in H2.
  destruct c2; [exact H2|].
  pose proof (step_3_uni p2 t2 e H2) as H3. destruct (step_3 p2 t2 e) as [[c3 p3] t3]; cbn [snd] in H3.
  pose proof (step_4_uni p3 t3 e H3) as H4. destruct (step_4 p3 t3 e) as [[c4 p4] t4]; cbn [snd] in H4.
  pose proof (step_5_uni p4 t4 e H4) as H5. destruct (step_5 p4 t4 e) as [[c5 p5] t5]; cbn [snd] in H5.
  destruct c5; [exact H5|].
  pose proof (step_6_uni p5 t5 e H5) as H6. destruct (step_6 p5 t5 e) as [[c6 p6] t6]; cbn [snd] in H6.
  destruct c6; [exact H6|].
  pose proof (step_7_uni p6 t6 e H6) as H7. destruct (step_7 p6 t6 e) as [[c7 p7] t7]; cbn [snd] in H7.
  destruct c7; [exact H7|].
  pose proof (step_8_uni p7 t7 e H7) as H8. destruct (step_8 p7 t7 e) as [[c8 p8] t8]; cbn [snd] in H8.
  destruct c8; exact H8.
Qed.

Lemma loop_uni fuel : forall n mx p t e p' t' n',
  unimodular t -> niggli_loop fuel n mx p t e = Ok (p', t', n') -> unimodular t'.
Proof.
  induction fuel; cbn [niggli_loop]; intros n mx p t e p' t' n' H E;
    destruct (mx <? n)%Z; try discriminate.
  pose proof (pass_uni p t e H) as HP. destruct (pass p t e) as [[c p1] t1]; cbn [snd] in HP.
  destruct c.
  - eapply IHfuel; eauto.
  - injection E as <- <- <-. exact HP.
Qed.

Lemma unimodular_tr k : unimodular k -> unimodular (ztr k).
Proof. unfold unimodular. rewrite zdet_tr. auto. Qed.

Definition zadj (m : zmat) : zmat := (Zm
  (z22 m * z33 m - z23 m * z32 m) (z13 m * z32 m - z12 m * z33 m) (z12 m * z23 m - z13 m * z22 m)
  (z23 m * z31 m - z21 m * z33 m) (z11 m * z33 m - z13 m * z31 m) (z13 m * z21 m - z11 m * z23 m)
  (z21 m * z32 m - z22 m * z31 m) (z12 m * z31 m - z11 m * z32 m) (z11 m * z22 m - z12 m * z21 m))%Z.
Definition zscale (k : Z) (m : zmat) : zmat := (Zm
  (k * z11 m) (k * z12 m) (k * z13 m) (k * z21 m) (k * z22 m) (k * z23 m)
  (k * z31 m) (k * z32 m) (k * z33 m))%Z.
Lemma zmul_zadj m : zmul (zadj m) m = zscale (zdet m) zid.
Proof. destruct m; unfold zadj, zscale; vunfold; f_equal; ring. Qed.
Lemma zmul_scale k a b : zmul (zscale k a) b = zscale k (zmul a b).
Proof. destruct a, b; unfold zscale; vunfold; f_equal; ring. Qed.
(* integer inverse of a unimodular matrix *)
Lemma unimodular_inv k : unimodular k -> exists k', unimodular k' /\ zmul k' k = zid.
Proof.
  intros H. exists (zscale (zdet k) (zadj k)).
  assert (E : zmul (zscale (zdet k) (zadj k)) k = zid).
  { rewrite zmul_scale, zmul_zadj. destruct H as [-> | ->]; reflexivity. }
  split; auto. assert (D : (zdet (zscale (zdet k) (zadj k)) * zdet k)%Z = 1%Z)
    by (rewrite <- zdet_mul, E; reflexivity).
  unfold unimodular in *. destruct H as [H | H]; rewrite H in *; lia.
Qed.

(* ---------------- independent notion: lattice generated by the rows ------------- *)
Definition in_lattice (cell : mat) (v : vec) := exists n : zvec, v = vmat (ofZv n) cell.
Definition same_lattice (c1 c2 : mat) := forall v, in_lattice c1 v <-> in_lattice c2 v.

Definition zvmat (n : zvec) (m : zmat) : zvec := (Zv
  (zx n * z11 m + zy n * z21 m + zz n * z31 m)
  (zx n * z12 m + zy n * z22 m + zz n * z32 m)
  (zx n * z13 m + zy n * z23 m + zz n * z33 m))%Z.
Lemma ofZv_mat n m : ofZv (zvmat n m) = vmat (ofZv n) (ofZ m).
Proof.
  destruct n, m; unfold ofZv, zvmat; vunfold; cbn [Base.zx Base.zy Base.zz].
  repeat rewrite ?plus_IZR, ?mult_IZR. reflexivity.
Qed.

Lemma ofZ_id : ofZ zid = mid.
Proof. reflexivity. Qed.

Lemma unimodular_same_lattice k cell : unimodular k -> same_lattice (mmul (ofZ k) cell) cell.
Proof.
  intros H v. split; intros [n E].
  - exists (zvmat n k). rewrite ofZv_mat, vmat_mmul. exact E.
  - destruct (unimodular_inv k H) as (k' & _ & Ek).
    exists (zvmat n k'). rewrite ofZv_mat, vmat_mmul, <- mmul_assoc, <- ofZ_mul, Ek, ofZ_id, mmul_id_l.
    exact E.
Qed.

(* ---------------- bound on the number of passes ---------------- *)
Lemma loop_bound fuel : forall n mx p t e p' t' n',
  niggli_loop fuel n mx p t e = Ok (p', t', n') -> (n < n' <= mx + 1)%Z.
Proof.
  induction fuel; cbn [niggli_loop]; intros n mx p t e p' t' n' E;
    destruct (Z.ltb_spec mx n); try discriminate.
  destruct (pass p t e) as [[[|] p1] t1].
  - apply IHfuel in E. lia.
  - injection E as <- <- <-. lia.
Qed.
Lemma loop_fuel fuel : forall n mx p t e,
  (0 <= n)%Z -> (Z.of_nat fuel > mx - n)%Z ->
  (exists r, niggli_loop fuel n mx p t e = Ok r) \/
  niggli_loop fuel n mx p t e = Err NiggliReductionFailed.
Proof.
  induction fuel; cbn [niggli_loop]; intros n mx p t e Hn Hf; destruct (Z.ltb_spec mx n); auto.
  - exfalso. lia.
  - destruct (pass p t e) as [[[|] p1] t1]; eauto. apply IHfuel; lia.
Qed.

(* ---------------- exit conditions ---------------- *)
Lemma cwt_gt_false x y e : cwt x CGt y e = false <-> x <= y + e.
Proof. unfold cwt. rewrite Rltb_false. lra. Qed.
Lemma cwt_gt_true x y e : cwt x CGt y e = true <-> y + e < x.
Proof. unfold cwt. rewrite Rltb_true. lra. Qed.
Lemma cwt_lt_false x y e : cwt x CLt y e = false <-> y <= x + e.
Proof. unfold cwt. rewrite Rltb_false. lra. Qed.
Lemma cwt_lt_true x y e : cwt x CLt y e = true <-> x + e < y.
Proof. unfold cwt. rewrite Rltb_true. lra. Qed.
Lemma near_iff e x y : near e x y <-> - e <= x - y <= e.
Proof. unfold near, Rabs. destruct (Rcase_abs (x - y)); lra. Qed.
Lemma cwt_eq_true x y e : cwt x CEq y e = true <-> near e x y.
Proof. unfold cwt. rewrite negb_true_iff, orb_false_iff, !Rltb_false, near_iff. lra. Qed.
Lemma cwt_le_true x y e : cwt x CLe y e = true <-> x <= y + e.
Proof. unfold cwt. rewrite negb_true_iff, Rltb_false. lra. Qed.
Lemma cwt_le_false x y e : cwt x CLe y e = false <-> y + e < x.
Proof. unfold cwt. rewrite negb_false_iff, Rltb_true. lra. Qed.

Definition cond_1 e p := nB p + e < nA p \/ (near e (nA p) (nB p) /\ Rabs (neta p) + e < Rabs (nxi p)).
Definition cond_2 e p := nC p + e < nB p \/ (near e (nB p) (nC p) /\ Rabs (nzeta p) + e < Rabs (neta p)).
Definition cond_5 e p := nB p + e < Rabs (nxi p) \/ (near e (nxi p) (nB p) /\ 2 * neta p + e < nzeta p)
  \/ (near e (nxi p) (- nB p) /\ nzeta p + e < 0).
Definition cond_6 e p := nA p + e < Rabs (neta p) \/ (near e (neta p) (nA p) /\ 2 * nxi p + e < nzeta p)
  \/ (near e (neta p) (- nA p) /\ nzeta p + e < 0).
Definition cond_7 e p := nA p + e < Rabs (nzeta p) \/ (near e (nzeta p) (nA p) /\ 2 * nxi p + e < neta p)
  \/ (near e (nzeta p) (- nA p) /\ neta p + e < 0).
Definition cond_8 e p :=
  let s := nxi p + neta p + nzeta p + nA p + nB p in
  s + e < 0 \/ (near e s 0 /\ 0 + e < 2 * (nA p + neta p) + nzeta p).

Definition upd_1 p := NP (nB p) (nA p) (nC p) (neta p) (nxi p) (nzeta p).
Definition upd_2 p := NP (nA p) (nC p) (nB p) (nxi p) (nzeta p) (neta p).
Definition upd_5 p := let s := IZR (sgn (nxi p)) in
  NP (nA p) (nB p) (nB p + nC p - nxi p * s) (nxi p - 2 * nB p * s) (neta p - nzeta p * s) (nzeta p).
Definition upd_6 p := let s := IZR (sgn (neta p)) in
  NP (nA p) (nB p) (nA p + nC p - neta p * s) (nxi p - nzeta p * s) (neta p - 2 * nA p * s) (nzeta p).
Definition upd_7 p := let s := IZR (sgn (nzeta p)) in
  NP (nA p) (nA p + nB p - nzeta p * s) (nC p) (nxi p - neta p * s) (neta p) (nzeta p - 2 * nA p * s).
Definition upd_8 p := NP (nA p) (nB p) (nA p + nB p + nC p + nxi p + neta p + nzeta p)
              (2 * nB p + nxi p + nzeta p) (2 * nA p + neta p + nzeta p) (nzeta p).

Definition mat_1 := Zm 0 (-1) 0 (-1) 0 0 0 0 (-1).
Definition mat_2 := Zm (-1) 0 0 0 0 (-1) 0 (-1) 0.
Definition mat_5 p := Zm 1 0 0 0 1 (- sgn (nxi p)) 0 0 1.
Definition mat_6 p := Zm 1 0 (- sgn (neta p)) 0 1 0 0 0 1.
Definition mat_7 p := Zm 1 (- sgn (nzeta p)) 0 0 1 0 0 0 1.
Definition mat_8 := Zm 1 0 1 0 1 1 0 0 1.

Ltac step_cases := intros; repeat match goal with
  | |- context [if ?c then _ else _] => destruct c eqn:?C end;
  [left | right]; split; try reflexivity;
  repeat rewrite ?orb_true_iff, ?orb_false_iff, ?andb_true_iff, ?andb_false_iff in *;
  repeat rewrite <- ?not_true_iff_false in *;
  rewrite ?cwt_gt_true, ?cwt_lt_true, ?cwt_eq_true in *; tauto.

Lemma step_1_cases p t e :
  (cond_1 e p /\ step_1 p t e = (true, upd_1 p, zmul t mat_1)) \/ (~ cond_1 e p /\ step_1 p t e = (false, p, t)).
Proof. unfold step_1, cond_1. step_cases. Qed.
Lemma step_2_cases p t e :
  (cond_2 e p /\ step_2 p t e = (true, upd_2 p, zmul t mat_2)) \/ (~ cond_2 e p /\ step_2 p t e = (false, p, t)).
Proof. unfold step_2, cond_2. step_cases. Qed.
Lemma step_5_cases p t e :
  (cond_5 e p /\ step_5 p t e = (true, upd_5 p, zmul t (mat_5 p))) \/ (~ cond_5 e p /\ step_5 p t e = (false, p, t)).
Proof. unfold step_5, cond_5. step_cases. Qed.
Lemma step_6_cases p t e :
  (cond_6 e p /\ step_6 p t e = (true, upd_6 p, zmul t (mat_6 p))) \/ (~ cond_6 e p /\ step_6 p t e = (false, p, t)).
Proof. unfold step_6, cond_6. step_cases. Qed.
Lemma step_7_cases p t e :
  (cond_7 e p /\ step_7 p t e = (true, upd_7 p, zmul t (mat_7 p))) \/ (~ cond_7 e p /\ step_7 p t e = (false, p, t)).
Proof. unfold step_7, cond_7. step_cases. Qed.
Lemma step_8_cases p t e :
  (cond_8 e p /\ step_8 p t e = (true, upd_8 p, zmul t mat_8)) \/ (~ cond_8 e p /\ step_8 p t e = (false, p, t)).
Proof. unfold step_8, cond_8. step_cases. Qed.

Definition after_1 p t e : npar * zmat := let '(_, p, t) := step_1 p t e in (p, t).
Definition after_34 p t e : npar * zmat :=
  let '(_, p, t) := step_3 p t e in let '(_, p, t) := step_4 p t e in (p, t).

Lemma pass_cases p t e :
  let p1 := fst (after_1 p t e) in let t1 := snd (after_1 p t e) in
  let p4 := fst (after_34 p1 t1 e) in let t4 := snd (after_34 p1 t1 e) in
  (cond_2 e p1 /\ pass p t e = (true, upd_2 p1, zmul t1 mat_2)) \/
  (~ cond_2 e p1 /\ cond_5 e p4 /\ pass p t e = (true, upd_5 p4, zmul t4 (mat_5 p4))) \/
  (~ cond_2 e p1 /\ ~ cond_5 e p4 /\ cond_6 e p4 /\ pass p t e = (true, upd_6 p4, zmul t4 (mat_6 p4))) \/
  (~ cond_2 e p1 /\ ~ cond_5 e p4 /\ ~ cond_6 e p4 /\ cond_7 e p4 /\
     pass p t e = (true, upd_7 p4, zmul t4 (mat_7 p4))) \/
  (~ cond_2 e p1 /\ ~ cond_5 e p4 /\ ~ cond_6 e p4 /\ ~ cond_7 e p4 /\ cond_8 e p4 /\
     pass p t e = (true, upd_8 p4, zmul t4 mat_8)) \/
  (~ cond_2 e p1 /\ ~ cond_5 e p4 /\ ~ cond_6 e p4 /\ ~ cond_7 e p4 /\ ~ cond_8 e p4 /\
     pass p t e = (false, p4, t4)).
Proof.
  unfold pass, after_1, after_34.
  destruct (step_1 p t e) as [[c1 p1] t1]; cbn [fst snd].
  destruct (step_2_cases p1 t1 e) as [[C ->]|[C ->]]; [left; auto|right].
  destruct (step_3 p1 t1 e) as [[c3 p3] t3]. destruct (step_4 p3 t3 e) as [[c4 p4] t4]. cbn [fst snd].
  destruct (step_5_cases p4 t4 e) as [[C5 ->]|[C5 ->]]; [left; auto|right].
  destruct (step_6_cases p4 t4 e) as [[C6 ->]|[C6 ->]]; [left; auto|right].
  destruct (step_7_cases p4 t4 e) as [[C7 ->]|[C7 ->]]; [left; auto 10|right].
  destruct (step_8_cases p4 t4 e) as [[C8 ->]|[C8 ->]]; [left; auto 10|right; auto 10].
Qed.

Definition signed p := (0 < nxi p /\ 0 < neta p /\ 0 < nzeta p) \/ (nxi p <= 0 /\ neta p <= 0 /\ nzeta p <= 0).

Lemma after_34_spec p t e : 0 <= e ->
  let p' := fst (after_34 p t e) in
  nA p' = nA p /\ nB p' = nB p /\ nC p' = nC p /\
  Rabs (nxi p') = Rabs (nxi p) /\ Rabs (neta p') = Rabs (neta p) /\ Rabs (nzeta p') = Rabs (nzeta p) /\
  signed p'.
Proof.
  intros He. unfold after_34, step_3.
  destruct (cwt (nxi p * neta p * nzeta p) CGt 0 e) eqn:C3.
  - unfold step_4; cbn [nxi neta nzeta].
    assert (P : cwt (Rabs (nxi p) * Rabs (neta p) * Rabs (nzeta p)) CLe 0 e = false).
    { apply cwt_gt_true in C3. apply cwt_le_false. rewrite <- !Rabs_mult.
      rewrite Rabs_pos_eq by lra. lra. }
    rewrite P. cbn. rewrite !Rabs_Rabsolu. do 6 (split; [reflexivity|]).
    left. apply cwt_gt_true in C3. cbn.
    repeat split; apply Rabs_pos_lt; intros E; rewrite E in C3; lra.
  - unfold step_4.
    assert (P : cwt (nxi p * neta p * nzeta p) CLe 0 e = true).
    { apply cwt_gt_false in C3. apply cwt_le_true. lra. }
    rewrite P.
    set (X := if cwt_default (nxi p) CGt 0 then _ else _).
    destruct X as [i q]. set (X := if cwt_default (neta p) CGt 0 then _ else _).
    destruct X as [j q']. set (X := if cwt_default (nzeta p) CGt 0 then _ else _).
    destruct X as [k q'']. set (X := if (_ <? 0)%Z then _ else _). destruct X as [[i' j'] k'].
    cbn. rewrite !Rabs_Ropp, !Rabs_Rabsolu. do 6 (split; [reflexivity|]).
    right. cbn. pose proof (Rabs_pos (nxi p)). pose proof (Rabs_pos (neta p)).
    pose proof (Rabs_pos (nzeta p)). lra.
Qed.

Lemma after_1_not_cond p t e : 0 <= e -> ~ cond_1 e (fst (after_1 p t e)).
Proof.
  intros He. unfold after_1. destruct (step_1_cases p t e) as [[C ->]|[C ->]]; cbn; auto.
  unfold cond_1, upd_1 in *; cbn. rewrite !near_iff in *. lra.
Qed.

Lemma exit_reduced p t e p' t' : 0 <= e -> pass p t e = (false, p', t') -> reduced e p'.
Proof.
  intros He E. pose proof (pass_cases p t e) as P. cbv zeta in P. rewrite E in P.
  destruct P as [[_ P]|[(_ & _ & P)|[(_ & _ & _ & P)|[(_ & _ & _ & _ & P)|[(_ & _ & _ & _ & _ & P)|
    (C2 & C5 & C6 & C7 & C8 & P)]]]]]; try discriminate.
  assert (Ep : p' = fst (after_34 (fst (after_1 p t e)) (snd (after_1 p t e)) e)) by congruence.
  clear P E.
  pose proof (after_1_not_cond p t e He) as C1.
  set (p1 := fst (after_1 p t e)) in *. set (t1 := snd (after_1 p t e)) in *.
  pose proof (after_34_spec p1 t1 e He) as S. cbv zeta in S. rewrite <- Ep in *. clear Ep.
  destruct S as (SA & SB & SC & Sx & Se & Sz & Sg).
  unfold cond_1, cond_2, cond_5, cond_6, cond_7, cond_8 in *. cbv zeta in C8.
  rewrite <- SA, <- SB, <- Sx, <- Se in C1. rewrite <- SB, <- SC, <- Se, <- Sz in C2.
  constructor; try exact Sg; intros; apply Rnot_lt_le; intros F.
  all: first [ apply C1; left; lra | apply C1; right; split; [assumption|lra]
     | apply C2; left; lra | apply C2; right; split; [assumption|lra]
     | apply C5; left; lra | apply C6; left; lra | apply C7; left; lra
     | apply C5; right; left; split; [assumption|lra] | apply C6; right; left; split; [assumption|lra]
     | apply C7; right; left; split; [assumption|lra] | apply C5; right; right; split; [assumption|lra]
     | apply C6; right; right; split; [assumption|lra] | apply C7; right; right; split; [assumption|lra]
     | apply C8; left; lra | apply C8; right; split; [assumption|lra] ].
Qed.
