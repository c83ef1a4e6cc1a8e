(* F_NiggliRun.v : computing runs of the Niggli loop whose numbers are multiples of 1/s and whose tolerance is known
   to lie between lo/s and hi/s.  Used for the witnesses of P_NiggliLoop. *)
From Verif Require Import Base M_Strings M_Numerical F_Numerical M_Geometry F_Geometry M_Niggli S_Niggli F_Niggli F_NiggliQ.
Open Scope Z_scope.

Record zpar := ZP { pA : Z; pB : Z; pC : Z; px : Z; py : Z; pz : Z }.
Definition zor (u v : option bool) := match u with Some true => Some true | Some false => v | None => None end.
Definition zand (u v : option bool) := match u with Some true => v | Some false => Some false | None => None end.
Notation "'may' x <- r ; k" := (match r with Some x => k | None => None end) (at level 200, x pattern, r at level 100).

Section Run.
  (* at : the default tolerance 1/10^8, in units of 1/s *)
  Variables s lo hi at_ : Z.
  Definition zgt (u v : Z) : option bool := if hi <? u - v then Some true else if u - v <=? lo then Some false else None.
  Definition zeq (u v : Z) : option bool := if Z.abs (u - v) <=? lo then Some true else if hi <? Z.abs (u - v) then Some false else None.
  Definition zgt3 (u v w : Z) : option bool := if hi * (s * s) <? u * v * w then Some true else if u * v * w <=? lo * (s * s) then Some false else None.
  Definition zc1 p := zor (zgt (pA p) (pB p)) (zand (zeq (pA p) (pB p)) (zgt (Z.abs (px p)) (Z.abs (py p)))).
  Definition zc2 p := zor (zgt (pB p) (pC p)) (zand (zeq (pB p) (pC p)) (zgt (Z.abs (py p)) (Z.abs (pz p)))).
  Definition zc5 p := zor (zor (zgt (Z.abs (px p)) (pB p)) (zand (zeq (px p) (pB p)) (zgt (pz p) (2 * py p)))) (zand (zeq (px p) (- pB p)) (zgt 0 (pz p))).
  Definition zc6 p := zor (zor (zgt (Z.abs (py p)) (pA p)) (zand (zeq (py p) (pA p)) (zgt (pz p) (2 * px p)))) (zand (zeq (py p) (- pA p)) (zgt 0 (pz p))).
  Definition zc7 p := zor (zor (zgt (Z.abs (pz p)) (pA p)) (zand (zeq (pz p) (pA p)) (zgt (py p) (2 * px p)))) (zand (zeq (pz p) (- pA p)) (zgt 0 (py p))).
  Definition zc8 p := let t := px p + py p + pz p + pA p + pB p in zor (zgt 0 t) (zand (zeq t 0) (zgt (2 * (pA p + py p) + pz p) 0)).
  Definition zdiag4 (p : zpar) : zmat :=
    let '(i, q) := if at_ <? px p then ((-1)%Z, Pnone) else if negb (px p <? - at_) then (1, Pi) else (1, Pnone) in
    let '(j, q) := if at_ <? py p then ((-1)%Z, q) else if negb (py p <? - at_) then (1, Pj) else (1, q) in
    let '(k, q) := if at_ <? pz p then ((-1)%Z, q) else if negb (pz p <? - at_) then (1, Pk) else (1, q) in
    let '(i, j, k) := if i * j * k <? 0 then match q with Pnone => (i, j, k) | Pi => (-1, j, k) | Pj => (i, -1, k) | Pk => (i, j, -1) end else (i, j, k) in
    zdiag i j k.
  Definition zs34 (p : zpar) (t : zmat) : option (zpar * zmat) :=
    may b <- zgt3 (px p) (py p) (pz p);
    if b then
      may i <- zgt (px p) 0; may j <- zgt (py p) 0; may k <- zgt (pz p) 0;
      let w (b : bool) := if b then 1 else -1 in
      Some (ZP (pA p) (pB p) (pC p) (Z.abs (px p)) (Z.abs (py p)) (Z.abs (pz p)), zmul t (zdiag (w i) (w j) (w k)))
    else Some (ZP (pA p) (pB p) (pC p) (- Z.abs (px p)) (- Z.abs (py p)) (- Z.abs (pz p)), zmul t (zdiag4 p)).
  Definition zpass (p : zpar) (t : zmat) : option (bool * zpar * zmat) :=
    may b <- zc1 p;
    let '(p, t) := if b then (ZP (pB p) (pA p) (pC p) (py p) (px p) (pz p), zmul t mat_1) else (p, t) in
    may b <- zc2 p;
    if b then Some (true, ZP (pA p) (pC p) (pB p) (px p) (pz p) (py p), zmul t mat_2) else
    may (p, t) <- zs34 p t;
    may b <- zc5 p;
    let s := Z.sgn (px p) in
    if b then Some (true, ZP (pA p) (pB p) (pB p + pC p - px p * s) (px p - 2 * pB p * s) (py p - pz p * s) (pz p), zmul t (Zm 1 0 0 0 1 (- s) 0 0 1)) else
    may b <- zc6 p;
    let s := Z.sgn (py p) in
    if b then Some (true, ZP (pA p) (pB p) (pA p + pC p - py p * s) (px p - pz p * s) (py p - 2 * pA p * s) (pz p), zmul t (Zm 1 0 (- s) 0 1 0 0 0 1)) else
    may b <- zc7 p;
    let s := Z.sgn (pz p) in
    if b then Some (true, ZP (pA p) (pA p + pB p - pz p * s) (pC p) (px p - py p * s) (py p) (pz p - 2 * pA p * s), zmul t (Zm 1 (- s) 0 0 1 0 0 0 1)) else
    may b <- zc8 p;
    if b then Some (true, ZP (pA p) (pB p) (pA p + pB p + pC p + px p + py p + pz p) (2 * pB p + px p + pz p) (2 * pA p + py p + pz p) (pz p), zmul t mat_8)
    else Some (false, p, t).
  (* n passes, all of which ask for another one *)
  Fixpoint zpasses (n : nat) (p : zpar) (t : zmat) : option (zpar * zmat) :=
    match n with
    | O => Some (p, t)
    | S n => match zpass p t with Some (true, p', t') => zpasses n p' t' | _ => None end
    end.

  Open Scope R_scope.
  Variable eps : R.
  Hypothesis Hs : (0 < s)%Z.
  Hypothesis Hlo : IZR lo / IZR s <= eps.
  Hypothesis Hhi : eps <= IZR hi / IZR s.
  Hypothesis Hat : (at_ * 100000000 = s)%Z.
  Definition r (u : Z) : R := IZR u / IZR s.
  Definition real (p : zpar) : npar := NP (r (pA p)) (r (pB p)) (r (pC p)) (r (px p)) (r (py p)) (r (pz p)).
  Let S0 : 0 < IZR s. Proof. apply IZR_lt. exact Hs. Qed.
  Lemma r_lt u v : r u < r v <-> (u < v)%Z.
  Proof.
    unfold r. split; intros H.
    - apply lt_IZR. apply (Rmult_lt_reg_r (/ IZR s)); [apply Rinv_0_lt_compat; auto|exact H].
    - apply Rmult_lt_compat_r; [apply Rinv_0_lt_compat; auto|apply IZR_lt; auto].
  Qed.
  Lemma r_le u v : r u <= r v <-> (u <= v)%Z.
  Proof.
    split; intros H.
    - apply Z.nlt_ge. intros L. apply r_lt in L. lra.
    - apply Rnot_lt_le. intros L. apply r_lt in L. lia.
  Qed.
  Lemma r_sub u v : r (u - v) = r u - r v. Proof. unfold r. rewrite minus_IZR. field. lra. Qed.
  Lemma r_add u v : r (u + v) = r u + r v. Proof. unfold r. rewrite plus_IZR. field. lra. Qed.
  Lemma r_mul u v : r (u * v) = r u * IZR v. Proof. unfold r. rewrite mult_IZR. field. lra. Qed.
  Lemma r_opp u : r (- u) = - r u. Proof. unfold r. rewrite opp_IZR. field. lra. Qed.
  Lemma r_0 : r 0 = 0. Proof. unfold r. field. lra. Qed.
  Lemma r_abs u : r (Z.abs u) = Rabs (r u).
  Proof. unfold r. rewrite abs_IZR. unfold Rdiv. rewrite Rabs_mult. f_equal. rewrite Rabs_pos_eq; [reflexivity|]. left. apply Rinv_0_lt_compat; auto. Qed.
  Lemma r_2 u : r (2 * u) = 2 * r u. Proof. unfold r. rewrite mult_IZR. field. lra. Qed.
  Lemma r_sgn u : sgn (r u) = Z.sgn u.
  Proof.
    unfold sgn. destruct (Rltb 0 (r u)) eqn:A; [apply Rltb_true in A; rewrite <- r_0 in A; apply r_lt in A; lia|].
    apply Rltb_false in A. rewrite <- r_0 in A. apply r_le in A. destruct (Rltb (r u) 0) eqn:B.
    - apply Rltb_true in B. rewrite <- r_0 in B. apply r_lt in B. lia.
    - apply Rltb_false in B. rewrite <- r_0 in B. apply r_le in B. lia.
  Qed.

  Definition dec (u : option bool) (b : bool) := forall c, u = Some c -> b = c.
  Lemma dec_or u v b c : dec u b -> dec v c -> dec (zor u v) (b || c)%bool.
  Proof. intros U V d. unfold zor. destruct u as [[|]|]; [intros [= <-]; rewrite (U _ eq_refl); reflexivity| |discriminate]. intros E. rewrite (U _ eq_refl). apply V, E. Qed.
  Lemma dec_and u v b c : dec u b -> dec v c -> dec (zand u v) (b && c)%bool.
  Proof. intros U V d. unfold zand. destruct u as [[|]|]; [|intros [= <-]; rewrite (U _ eq_refl); reflexivity|discriminate]. intros E. rewrite (U _ eq_refl). apply V, E. Qed.
  Lemma dec_gt u v x y : r u = x -> r v = y -> dec (zgt u v) (cwt x CGt y eps).
  Proof.
    intros <- <- c. unfold zgt. destruct (Z.ltb_spec hi (u - v)) as [L|_].
    - intros [= <-]. apply cwt_gt_true. apply r_lt in L. rewrite r_sub in L. unfold r in *. lra.
    - destruct (Z.leb_spec (u - v) lo) as [L|_]; [|discriminate]. intros [= <-]. apply cwt_gt_false. apply r_le in L. rewrite r_sub in L. unfold r in *. lra.
  Qed.
  Lemma dec_lt u v x y : r u = x -> r v = y -> dec (zgt v u) (cwt x CLt y eps).
  Proof. intros U V c H. rewrite <- (dec_gt v u y x V U c H). unfold cwt. reflexivity. Qed.
  Lemma dec_eq u v x y : r u = x -> r v = y -> dec (zeq u v) (cwt x CEq y eps).
  Proof.
    intros <- <- c. unfold zeq. destruct (Z.leb_spec (Z.abs (u - v)) lo) as [L|_].
    - intros [= <-]. apply cwt_eq_true. unfold near. rewrite <- r_sub, <- r_abs. apply r_le in L. unfold r in *. lra.
    - destruct (Z.ltb_spec hi (Z.abs (u - v))) as [L|_]; [|discriminate]. intros [= <-]. apply Bool.not_true_iff_false. intros F. apply cwt_eq_true in F. unfold near in F.
      rewrite <- r_sub, <- r_abs in F. apply r_lt in L. unfold r in *. lra.
  Qed.
  Lemma r_3 u v w : r u * r v * r w = r (u * v * w) / IZR (s * s).
  Proof. unfold r. rewrite !mult_IZR. field. lra. Qed.
  Lemma SS : 0 < IZR (s * s). Proof. rewrite mult_IZR. nra. Qed.
  Lemma dec_gt3 u v w : dec (zgt3 u v w) (cwt (r u * r v * r w) CGt 0 eps).
  Proof.
    intros c. pose proof SS as Q. assert (QI : 0 < / IZR (s * s)) by (apply Rinv_0_lt_compat; auto). unfold zgt3. destruct (Z.ltb_spec (hi * (s * s)) (u * v * w)) as [L|_].
    - intros [= <-]. apply cwt_gt_true. rewrite r_3. apply r_lt in L. rewrite (r_mul hi) in L.
      apply (Rmult_lt_compat_r (/ IZR (s * s))) in L; auto. rewrite Rmult_assoc, Rinv_r, Rmult_1_r in L by lra. unfold Rdiv. unfold r in *. lra.
    - destruct (Z.leb_spec (u * v * w) (lo * (s * s))) as [L|_]; [|discriminate]. intros [= <-]. apply cwt_gt_false. rewrite r_3. apply r_le in L. rewrite (r_mul lo) in L.
      apply (Rmult_le_compat_r (/ IZR (s * s))) in L; [|lra]. rewrite Rmult_assoc, Rinv_r, Rmult_1_r in L by lra. unfold Rdiv. unfold r in *. lra.
  Qed.
  Lemma at_r : default_atol = r at_.
  Proof. unfold default_atol, r. rewrite <- Hat, mult_IZR. field. intros E. rewrite <- Hat, mult_IZR, E in S0. lra. Qed.
  Lemma dgt u : cwt_default (r u) CGt 0 = (at_ <? u)%Z.
  Proof.
    unfold cwt_default. rewrite default_eps_0, at_r. destruct (Z.ltb_spec at_ u) as [L|L].
    - apply cwt_gt_true. apply r_lt in L. lra.
    - apply cwt_gt_false. apply r_le in L. lra.
  Qed.
  Lemma dlt u : cwt_default (r u) CLt 0 = (u <? - at_)%Z.
  Proof.
    unfold cwt_default. rewrite default_eps_0, at_r. destruct (Z.ltb_spec u (- at_)) as [L|L].
    - apply cwt_lt_true. apply r_lt in L. rewrite r_opp in L. lra.
    - apply cwt_lt_false. apply r_le in L. rewrite r_opp in L. lra.
  Qed.
  Ltac rs := repeat (rewrite r_abs || rewrite r_opp || rewrite r_2 || rewrite r_add || rewrite r_sub || rewrite r_0); try reflexivity.

  Lemma zs34_ok p t p' t' : zs34 p t = Some (p', t') -> after_34 (real p) t eps = (real p', t').
  Proof.
    unfold zs34. destruct (zgt3 (px p) (py p) (pz p)) as [b|] eqn:G; [|discriminate]. apply dec_gt3 in G.
    unfold after_34, step_3. cbn [real nA nB nC nxi neta nzeta]. rewrite G. destruct b.
    - destruct (zgt (px p) 0) as [i|] eqn:I; [|discriminate]. destruct (zgt (py p) 0) as [j|] eqn:J; [|discriminate]. destruct (zgt (pz p) 0) as [k|] eqn:K; [|discriminate].
      intros [= <- <-]. rewrite (dec_gt _ _ _ _ eq_refl r_0 _ I), (dec_gt _ _ _ _ eq_refl r_0 _ J), (dec_gt _ _ _ _ eq_refl r_0 _ K).
      unfold step_4. cbn [nA nB nC nxi neta nzeta].
      assert (P : cwt (Rabs (r (px p)) * Rabs (r (py p)) * Rabs (r (pz p))) CLe 0 eps = false).
      { apply cwt_gt_true in G. apply cwt_le_false. rewrite <- !Rabs_mult. pose proof (Rle_abs (r (px p) * r (py p) * r (pz p))). lra. }
      rewrite P. unfold real. cbn [pA pB pC px py pz]. rewrite !r_abs. reflexivity.
    - intros [= <- <-]. unfold step_4, zdiag4. cbn [real nA nB nC nxi neta nzeta]. rewrite !dgt, !dlt.
      assert (P : cwt (r (px p) * r (py p) * r (pz p)) CLe 0 eps = true) by (apply cwt_gt_false in G; apply cwt_le_true; lra). rewrite P.
      unfold real. cbn [pA pB pC px py pz]. rewrite !r_opp, !r_abs.
      destruct (if (at_ <? px p)%Z then _ else _) as [i q1]. destruct (if (at_ <? py p)%Z then _ else _) as [j q2]. destruct (if (at_ <? pz p)%Z then _ else _) as [k q3].
      destruct (if (i * j * k <? 0)%Z then _ else _) as [[i' j'] k']. reflexivity.
  Qed.
  Opaque Z.mul.
  Lemma zpass_ok p t b p' t' : zpass p t = Some (b, p', t') -> pass (real p) t eps = (b, real p', t').
  Proof.
    assert (R4 : forall u v, r u - 2 * r v * IZR (sgn (r u)) = r (u - 2 * v * Z.sgn u)) by (intros; rewrite r_sgn, r_sub, r_mul, r_2; reflexivity).
    unfold zpass, pass.
    assert (X1 : forall p t b, zc1 p = Some b -> step_1 (real p) t eps = (b, real (if b then ZP (pB p) (pA p) (pC p) (py p) (px p) (pz p) else p), if b then zmul t mat_1 else t)).
    { clear p t b p' t'. intros p t b H. unfold step_1. cbv zeta. match goal with |- (if ?c then _ else _) = _ => assert (Hb : c = b) end; [revert b H; match goal with |- forall b, _ -> ?c = b => change (dec (zc1 p) c) end; unfold zc1; cbv zeta; apply dec_or; [apply dec_gt|apply dec_and; [apply dec_eq|apply dec_gt]]; cbn [real nA nB nC nxi neta nzeta]; rs|rewrite Hb].
      destruct b; reflexivity. }
    assert (X2 : forall p t b, zc2 p = Some b -> step_2 (real p) t eps = (b, real (if b then ZP (pA p) (pC p) (pB p) (px p) (pz p) (py p) else p), if b then zmul t mat_2 else t)).
    { clear p t b p' t'. intros p t b H. unfold step_2. cbv zeta. match goal with |- (if ?c then _ else _) = _ => assert (Hb : c = b) end; [revert b H; match goal with |- forall b, _ -> ?c = b => change (dec (zc2 p) c) end; unfold zc2; cbv zeta; apply dec_or; [apply dec_gt|apply dec_and; [apply dec_eq|apply dec_gt]]; cbn [real nA nB nC nxi neta nzeta]; rs|rewrite Hb].
      destruct b; reflexivity. }
    destruct (zc1 p) as [b1|] eqn:C1; [|discriminate]. rewrite (X1 p t b1 C1). clear C1.
    replace (if b1 then (ZP (pB p) (pA p) (pC p) (py p) (px p) (pz p), zmul t mat_1) else (p, t)) with
      (if b1 then ZP (pB p) (pA p) (pC p) (py p) (px p) (pz p) else p, if b1 then zmul t mat_1 else t) by (destruct b1; reflexivity).
    generalize (if b1 then ZP (pB p) (pA p) (pC p) (py p) (px p) (pz p) else p) (if b1 then zmul t mat_1 else t). clear p t b1 X1. intros p t.
    destruct (zc2 p) as [b2|] eqn:C2; [|discriminate]. rewrite (X2 p t b2 C2). destruct b2; [intros [= <- <- <-]; reflexivity|]. clear X2 C2.
    destruct (zs34 p t) as [[q u]|] eqn:E34; [|discriminate]. apply zs34_ok in E34. unfold after_34 in E34.
    destruct (step_3 (real p) t eps) as [[c3 p3] t3]. destruct (step_4 p3 t3 eps) as [[c4 p4] t4]. injection E34 as -> ->. clear p t c3 p3 t3 c4. rename q into p, u into t.
    assert (X5 : forall b, zc5 p = Some b -> step_5 (real p) t eps = if b then (true, upd_5 (real p), zmul t (mat_5 (real p))) else (false, real p, t)).
    { clear b p' t'. intros b H. unfold step_5. cbv zeta. match goal with |- (if ?c then _ else _) = _ => assert (Hb : c = b) end; [revert b H; match goal with |- forall b, _ -> ?c = b => change (dec (zc5 p) c) end; unfold zc5; cbv zeta; apply dec_or; [apply dec_or; [apply dec_gt|apply dec_and; [apply dec_eq|apply dec_lt]]|apply dec_and; [apply dec_eq|apply dec_lt]]; cbn [real nA nB nC nxi neta nzeta]; rs|rewrite Hb].
      destruct b; reflexivity. }
    assert (X6 : forall b, zc6 p = Some b -> step_6 (real p) t eps = if b then (true, upd_6 (real p), zmul t (mat_6 (real p))) else (false, real p, t)).
    { clear b p' t'. intros b H. unfold step_6. cbv zeta. match goal with |- (if ?c then _ else _) = _ => assert (Hb : c = b) end; [revert b H; match goal with |- forall b, _ -> ?c = b => change (dec (zc6 p) c) end; unfold zc6; cbv zeta; apply dec_or; [apply dec_or; [apply dec_gt|apply dec_and; [apply dec_eq|apply dec_lt]]|apply dec_and; [apply dec_eq|apply dec_lt]]; cbn [real nA nB nC nxi neta nzeta]; rs|rewrite Hb].
      destruct b; reflexivity. }
    assert (X7 : forall b, zc7 p = Some b -> step_7 (real p) t eps = if b then (true, upd_7 (real p), zmul t (mat_7 (real p))) else (false, real p, t)).
    { clear b p' t'. intros b H. unfold step_7. cbv zeta. match goal with |- (if ?c then _ else _) = _ => assert (Hb : c = b) end; [revert b H; match goal with |- forall b, _ -> ?c = b => change (dec (zc7 p) c) end; unfold zc7; cbv zeta; apply dec_or; [apply dec_or; [apply dec_gt|apply dec_and; [apply dec_eq|apply dec_lt]]|apply dec_and; [apply dec_eq|apply dec_lt]]; cbn [real nA nB nC nxi neta nzeta]; rs|rewrite Hb].
      destruct b; reflexivity. }
    assert (X8 : forall b, zc8 p = Some b -> step_8 (real p) t eps = if b then (true, upd_8 (real p), zmul t mat_8) else (false, real p, t)).
    { clear b p' t'. intros b H. unfold step_8. cbv zeta. match goal with |- (if ?c then _ else _) = _ => assert (Hb : c = b) end; [revert b H; match goal with |- forall b, _ -> ?c = b => change (dec (zc8 p) c) end; unfold zc8; cbv zeta; apply dec_or; [apply dec_lt|apply dec_and; [apply dec_eq|apply dec_gt]]; cbn [real nA nB nC nxi neta nzeta]; rs|rewrite Hb].
      destruct b; reflexivity. }
    assert (RM : forall u v, r (u * Z.sgn v) = r u * IZR (sgn (r v))) by (intros; rewrite r_sgn; apply r_mul).
    destruct (zc5 p) as [b5|] eqn:C5; [|discriminate]. rewrite (X5 b5 eq_refl). destruct b5.
    { intros [= <- <- <-]. apply f_equal2; [apply f_equal2; [reflexivity|]|unfold mat_5; cbn [real nxi]; rewrite r_sgn; reflexivity]. unfold upd_5, real. cbn [nA nB nC nxi neta nzeta pA pB pC px py pz]. rewrite ?r_sub, ?r_add, ?RM, ?r_2. reflexivity. }
    destruct (zc6 p) as [b6|] eqn:C6; [|discriminate]. rewrite (X6 b6 eq_refl). destruct b6.
    { intros [= <- <- <-]. apply f_equal2; [apply f_equal2; [reflexivity|]|unfold mat_6; cbn [real neta]; rewrite r_sgn; reflexivity]. unfold upd_6, real. cbn [nA nB nC nxi neta nzeta pA pB pC px py pz]. rewrite ?r_sub, ?r_add, ?RM, ?r_2. reflexivity. }
    destruct (zc7 p) as [b7|] eqn:C7; [|discriminate]. rewrite (X7 b7 eq_refl). destruct b7.
    { intros [= <- <- <-]. apply f_equal2; [apply f_equal2; [reflexivity|]|unfold mat_7; cbn [real nzeta]; rewrite r_sgn; reflexivity]. unfold upd_7, real. cbn [nA nB nC nxi neta nzeta pA pB pC px py pz]. rewrite ?r_sub, ?r_add, ?RM, ?r_2. reflexivity. }
    destruct (zc8 p) as [b8|] eqn:C8; [|discriminate]. rewrite (X8 b8 eq_refl). destruct b8; intros [= <- <- <-].
    { apply f_equal2; [apply f_equal2; [reflexivity|]|reflexivity]. unfold upd_8, real. cbn [nA nB nC nxi neta nzeta pA pB pC px py pz]. rewrite ?r_add, ?r_2. reflexivity. }
    reflexivity.
  Qed.
  Transparent Z.mul.
  Lemma zpasses_ok n : forall p t p' t' fuel c mx, zpasses n p t = Some (p', t') -> (c + Z.of_nat n <= mx + 1)%Z ->
    niggli_loop (n + fuel) c mx (real p) t eps = niggli_loop fuel (c + Z.of_nat n) mx (real p') t' eps.
  Proof.
    induction n as [|n IH]; intros p t p' t' fuel c mx H L; cbn [zpasses] in H.
    - injection H as <- <-. rewrite Z.add_0_r. reflexivity.
    - destruct (zpass p t) as [[[b p1] t1]|] eqn:E; [|discriminate]. destruct b; [|discriminate]. apply zpass_ok in E.
      cbn [niggli_loop plus]. destruct (Z.ltb_spec mx c) as [F|_]; [lia|]. rewrite E, (IH _ _ _ _ _ _ _ H) by lia. f_equal. lia.
  Qed.
End Run.
