(* F_Lepage.v : lemmas about the LePage model *)
From Verif Require Import Base M_Numerical M_Geometry M_Cell M_Niggli M_Voronoi F_Voronoi F_Geometry M_Lepage.
From Coq Require Import Sorting.Permutation.
Open Scope R_scope.

(* ---------------- stable sort ---------------- *)
Section Sort.
  Context {A : Type} (key : A -> R).
  Inductive sorted : list A -> Prop :=
  | so_nil : sorted []
  | so_cons x l : (forall y, In y l -> key x <= key y) -> sorted l -> sorted (x :: l).

  Lemma insert_by_perm x l : Permutation (x :: l) (insert_by key x l).
  Proof.
    induction l as [|y l IH]; cbn; [auto|]. destruct (Rleb (key x) (key y)); [auto|].
    rewrite perm_swap. auto.
  Qed.
  Lemma sort_by_perm l : Permutation l (sort_by key l).
  Proof.
    induction l as [|x l IH]; cbn; [auto|]. fold (sort_by key l).
    rewrite <- insert_by_perm. auto.
  Qed.
  Lemma sort_by_in l x : In x (sort_by key l) <-> In x l.
  Proof. split; apply Permutation_in; [apply Permutation_sym|]; apply sort_by_perm. Qed.
  Lemma insert_by_sorted x l : sorted l -> sorted (insert_by key x l).
  Proof.
    induction 1 as [|y l Hy Hl IH]; cbn.
    - constructor; [intros ? []|constructor].
    - destruct (Rleb_spec (key x) (key y)).
      + constructor; [|constructor; auto]. intros z [<-|Hz]; [auto|]. specialize (Hy z Hz). lra.
      + constructor; auto. intros z Hz.
        apply (Permutation_in _ (Permutation_sym (insert_by_perm x l))) in Hz.
        destruct Hz as [<-|Hz]; [lra|auto].
  Qed.
  Lemma sort_by_sorted l : sorted (sort_by key l).
  Proof. induction l; cbn; [constructor|apply insert_by_sorted; auto]. Qed.
  Lemma sort_by_id l : sorted l -> sort_by key l = l.
  Proof.
    induction 1 as [|x l Hx Hl IH]; cbn; [auto|]. fold (sort_by key l). rewrite IH.
    destruct l as [|y l]; cbn; [auto|]. destruct (Rleb_spec (key x) (key y)); [auto|].
    specialize (Hx y (or_introl eq_refl)). lra.
  Qed.
  Lemma sorted_app l m : sorted (l ++ m) <->
    sorted l /\ sorted m /\ forall x y, In x l -> In y m -> key x <= key y.
  Proof.
    induction l as [|a l IH]; cbn.
    - split; [intros H; split; [constructor|]; split; [auto|intros x y []]|tauto].
    - split.
      + intros H. inversion H; subst. apply IH in H3. destruct H3 as (S1 & S2 & S3).
        repeat split; auto.
        * constructor; auto. intros y Hy. apply H2. apply in_app_iff; auto.
        * intros x y [<-|Hx] Hy; auto. apply H2. apply in_app_iff; auto.
      + intros (S1 & S2 & S3). inversion S1; subst. constructor.
        * intros y Hy. apply in_app_iff in Hy. destruct Hy; auto.
        * apply IH. auto.
  Qed.
End Sort.

(* ---------------- dropping the worst axes ---------------- *)
Notation sorted_axes := (sorted ax_delta).

Lemma max_delta_ub axes a : In a axes -> ax_delta a <= max_delta axes.
Proof.
  induction axes as [|b l IH]; cbn; [tauto|]. fold (max_delta l). intros [<-|H].
  - apply Rmax_l.
  - specialize (IH H). pose proof (Rmax_r (ax_delta b) (max_delta l)). lra.
Qed.
Lemma max_delta_nonneg axes : 0 <= max_delta axes.
Proof. induction axes; cbn; [lra|]. fold (max_delta axes). pose proof (Rmax_r (ax_delta a) (max_delta axes)). lra. Qed.
Lemma max_delta_attained axes : (forall a, In a axes -> 0 <= ax_delta a) -> axes <> [] ->
  exists a, In a axes /\ ax_delta a = max_delta axes.
Proof.
  induction axes as [|b l IH]; intros H NE; [congruence|]. cbn. fold (max_delta l).
  destruct (Rle_dec (max_delta l) (ax_delta b)).
  - exists b. rewrite Rmax_left; auto.
  - destruct l as [|c l].
    + exfalso. apply n. cbn. apply H; cbn; auto.
    + destruct IH as (a & Ha & E); [intros; apply H; cbn; auto|discriminate|].
      exists a. split; auto. rewrite Rmax_right; lra.
Qed.

Lemma drop_ties_spec r :
  exists p, r = p ++ drop_ties r /\ (length p + 1 <= length r \/ r = [])%nat /\
    (forall a b, In a p -> In b (firstn 1 (drop_ties r)) -> ax_delta a = ax_delta b) /\
    (forall b c l, drop_ties r = b :: c :: l -> ax_delta b <> ax_delta c).
Proof.
  induction r as [|a r IH].
  - exists []. cbn. repeat split; auto; [intros a b []|discriminate].
  - destruct r as [|b r].
    + exists []. cbn. repeat split; auto; [intros x y []|discriminate].
    + change (drop_ties (a :: b :: r)) with
        (if Reqb (ax_delta a) (ax_delta b) then drop_ties (b :: r) else a :: b :: r).
      destruct (Reqb_spec (ax_delta a) (ax_delta b)) as [E|E].
      * destruct IH as (p & E1 & L & T & D). exists (a :: p). repeat split.
        -- cbn [app]. f_equal. exact E1.
        -- left. destruct L; [cbn in *; lia|discriminate].
        -- intros x y [<-|Hx] Hy; [|auto].
           destruct p as [|q p]; cbn [app] in E1.
           ++ rewrite <- E1 in Hy. cbn in Hy. destruct Hy as [<-|[]]. exact E.
           ++ injection E1 as -> _. rewrite E. apply T; cbn; auto.
        -- exact D.
      * exists []. cbn. repeat split; auto.
        -- left; lia.
        -- intros x y [].
        -- intros x y l Q. injection Q as <- <- _. exact E.
Qed.

Lemma drop_worst_spec axes : sorted_axes axes -> (forall a, In a axes -> 0 <= ax_delta a) -> axes <> [] ->
  exists tail, axes = drop_worst axes ++ tail /\ tail <> [] /\
    (forall a, In a tail -> ax_delta a = max_delta axes) /\
    (forall a, In a (drop_worst axes) -> ax_delta a < max_delta axes).
Proof.
  intros S Nn NE. destruct (drop_ties_spec (rev axes)) as (p & E & L & T & D).
  assert (LR : (length p + 1 <= length (rev axes))%nat).
  { destruct L as [L|L]; auto. apply (f_equal (@rev axis)) in L. rewrite rev_involutive in L. contradiction. }
  destruct (drop_ties (rev axes)) as [|b l] eqn:Ed.
  { rewrite E, app_nil_r in LR. lia. }
  assert (Ea : axes = rev l ++ b :: rev p).
  { rewrite <- (rev_involutive axes), E, rev_app_distr. cbn. rewrite <- app_assoc. reflexivity. }
  assert (Ew : drop_worst axes = rev l) by (unfold drop_worst; rewrite Ed; reflexivity).
  assert (Tb : forall a, In a (b :: rev p) -> ax_delta a = ax_delta b).
  { intros a [<-|Ha]; auto. apply in_rev in Ha. apply T; cbn; auto. }
  pose proof S as S'. rewrite Ea in S'. apply sorted_app in S'. destruct S' as (S1 & S2 & S3).
  assert (Mb : max_delta axes = ax_delta b).
  { apply Rle_antisym.
    - destruct (max_delta_attained axes Nn NE) as (m & Hm & <-). rewrite Ea in Hm. apply in_app_iff in Hm.
      destruct Hm as [Hm|Hm]; [apply S3; cbn; auto|rewrite (Tb m Hm); lra].
    - apply max_delta_ub. rewrite Ea. apply in_app_iff; cbn; auto. }
  exists (b :: rev p). rewrite Ew. split; [exact Ea|]. split; [discriminate|]. split.
  - intros a Ha. rewrite Mb. auto.
  - intros a Ha. rewrite Mb. destruct l as [|c l]; [destruct Ha|].
    assert (Hc : ax_delta a <= ax_delta c).
    { cbn in S1, Ha. apply in_app_iff in Ha. apply sorted_app in S1. destruct S1 as (_ & _ & S1).
      destruct Ha as [Ha|[<-|[]]]; [apply S1; cbn; auto|lra]. }
    assert (Hcb : ax_delta c <= ax_delta b) by (apply S3; [apply in_rev; rewrite rev_involutive|]; cbn; auto).
    pose proof (D b c l eq_refl). lra.
Qed.

Lemma filter_all {A} (p : A -> bool) l : (forall a, In a l -> p a = true) -> filter p l = l.
Proof.
  induction l as [|a l IH]; cbn; intros H; auto. rewrite (H a) by auto. f_equal. apply IH. auto.
Qed.
Lemma filter_none {A} (p : A -> bool) l : (forall a, In a l -> p a = false) -> filter p l = [].
Proof.
  induction l as [|a l IH]; cbn; intros H; auto. rewrite (H a) by auto. apply IH. auto.
Qed.

(* axes whose angular discrepancy is at most d *)
Definition upto (d : R) (axes : list axis) : list axis := filter (fun a => Rleb (ax_delta a) d) axes.

Lemma upto_all d axes : max_delta axes <= d -> upto d axes = axes.
Proof.
  intros H. apply filter_all. intros a Ha. apply Rleb_true.
  pose proof (max_delta_ub axes a Ha). lra.
Qed.
Lemma upto_drop d axes : sorted_axes axes -> (forall a, In a axes -> 0 <= ax_delta a) ->
  d < max_delta axes -> upto d (drop_worst axes) = upto d axes.
Proof.
  intros S Nn H. destruct axes as [|a0 l0] eqn:E0; [reflexivity|]. rewrite <- E0 in *.
  destruct (drop_worst_spec axes S Nn) as (t & E & _ & T1 & T2); [rewrite E0; discriminate|].
  rewrite E at 2. unfold upto. rewrite filter_app, (filter_none _ t), app_nil_r; auto.
  intros a Ha. apply not_true_is_false. rewrite Rleb_true, T1 by auto. lra.
Qed.
Lemma drop_worst_len axes : axes <> [] -> (length (drop_worst axes) < length axes)%nat.
Proof.
  intros NE. unfold drop_worst. rewrite rev_length.
  destruct (drop_ties_spec (rev axes)) as (p & E & L & _).
  apply (f_equal (@length axis)) in E. rewrite app_length, rev_length in E. rewrite rev_length in L.
  destruct L as [L|L].
  - destruct (drop_ties (rev axes)); cbn in *; lia.
  - apply (f_equal (@rev axis)) in L. rewrite rev_involutive in L. contradiction.
Qed.
Lemma drop_worst_sorted axes : sorted_axes axes -> (forall a, In a axes -> 0 <= ax_delta a) ->
  sorted_axes (drop_worst axes) /\ (forall a, In a (drop_worst axes) -> In a axes).
Proof.
  intros S Nn. destruct axes as [|a0 l0] eqn:E0; [split; [constructor|intros a []]|]. rewrite <- E0 in *.
  destruct (drop_worst_spec axes S Nn) as (t & E & _ & T1 & T2); [rewrite E0; discriminate|].
  split.
  - rewrite E in S. apply sorted_app in S. apply S.
  - intros a Ha. rewrite E. apply in_app_iff; auto.
Qed.
Lemma drop_worst_prefix axes : sorted_axes axes -> (forall a, In a axes -> 0 <= ax_delta a) ->
  drop_worst axes = firstn (length (drop_worst axes)) axes.
Proof.
  intros S Nn. destruct axes as [|a0 l0] eqn:E0; [reflexivity|]. rewrite <- E0 in *.
  destruct (drop_worst_spec axes S Nn) as (t & E & _ & T1 & T2); [rewrite E0; discriminate|].
  rewrite E at 3. rewrite firstn_app, Nat.sub_diag, firstn_all, app_nil_r. reflexivity.
Qed.

(* ---------------- angles ---------------- *)
Definition angle_entry (a b : axis) (i j : nat) : R :=
  if Nat.eqb i j then axes_angle a b + axes_angle a b
  else if Nat.ltb i j then axes_angle a b else axes_angle b a.

Lemma combine_firstn_l {A B} (l : list A) (m : list B) n :
  firstn n (combine l m) = combine (firstn n l) (firstn n m).
Proof. revert l m; induction n; intros [|a l] [|b m]; cbn; auto. f_equal; auto. Qed.
Lemma firstn_seq n k s : (k <= n)%nat -> firstn k (seq s n) = seq s k.
Proof. revert k s; induction n; intros [|k] s H; cbn; auto; [lia|]. f_equal. apply IHn. lia. Qed.

Lemma angles_prefix axes n : (n <= length axes)%nat ->
  sub_square n (angles_of axes) = angles_of (firstn n axes).
Proof.
  intros H. unfold sub_square, angles_of. rewrite firstn_length, Nat.min_l by auto.
  rewrite firstn_map, map_map. rewrite combine_firstn_l, firstn_seq by auto.
  apply map_ext_in. intros p Hp. rewrite firstn_map, combine_firstn_l, firstn_seq by auto. reflexivity.
Qed.
Lemma angles_length axes : length (angles_of axes) = length axes.
Proof. unfold angles_of. rewrite map_length, combine_length, seq_length. lia. Qed.

(* ---------------- the loop ---------------- *)
Lemma loop_spec tol cell : 0 <= tol -> forall fuel axes results,
  sorted_axes axes -> (forall a, In a axes -> 0 <= ax_delta a) -> (length axes < fuel)%nat ->
  lepage_loop fuel axes (angles_of axes) tol cell = Ok results ->
  (1 <= length results <= S (length axes))%nat /\
  classify (angles_of (upto tol axes)) (upto tol axes) tol cell = Ok (last results EmptyString) /\
  (forall r, In r results -> exists d, 0 <= d /\ classify (angles_of (upto d axes)) (upto d axes) tol cell = Ok r).
Proof.
  intros Ht. induction fuel as [|fuel IH]; intros axes results S Nn L E; [lia|].
  cbn [lepage_loop] in E. destruct (classify (angles_of axes) axes tol cell) as [r|] eqn:C; [|discriminate].
  cbn [bind] in E. destruct (Rltb_spec tol (max_delta axes)) as [H|H].
  - assert (NE : axes <> []) by (intros ->; cbn in H; lra).
    destruct (drop_worst_sorted axes S Nn) as [S' I'].
    pose proof (drop_worst_len axes NE) as L'.
    rewrite (angles_prefix axes) in E by lia. rewrite <- drop_worst_prefix in E by auto.
    destruct (lepage_loop fuel _ _ _ _) as [rs|] eqn:El; [|discriminate]. cbn in E. injection E as <-.
    destruct (IH (drop_worst axes) rs) as (A1 & A2 & A3); auto; [lia|].
    split; [cbn; lia|]. split.
    + rewrite upto_drop in A2 by auto. destruct rs; [cbn in A1; lia|]. exact A2.
    + intros x [<-|Hx].
      * exists (max_delta axes). split; [apply max_delta_nonneg|]. rewrite upto_all by lra. exact C.
      * destruct (A3 x Hx) as (d & Hd & Q). 
        destruct (Rlt_dec d (max_delta axes)) as [G|G].
        -- exists d. split; auto. rewrite <- upto_drop by auto. exact Q.
        -- (* nothing in the shortened list exceeds d *)
           destruct (drop_worst_spec axes S Nn NE) as (t & Et & _ & T1 & T2).
           rewrite upto_all in Q.
           ++ exists (max_delta (drop_worst axes)). split; [apply max_delta_nonneg|].
              assert (W : upto (max_delta (drop_worst axes)) axes = drop_worst axes).
              { assert (M : max_delta (drop_worst axes) < max_delta axes).
                { destruct (drop_worst axes) as [|a l] eqn:Ed; [cbn; lra|]. rewrite <- Ed in *.
                  destruct (max_delta_attained (drop_worst axes)) as (m & Hm & <-); auto.
                  rewrite Ed; discriminate. }
                rewrite <- upto_drop by auto. apply upto_all. lra. }
              rewrite W. exact Q.
           ++ destruct (drop_worst axes) as [|a l] eqn:Ed; [cbn; lra|]. rewrite <- Ed in *.
              destruct (max_delta_attained (drop_worst axes)) as (m & Hm & <-); auto;
                [rewrite Ed; discriminate|]. specialize (T2 m Hm). lra.
  - injection E as <-. split; [cbn; lia|]. assert (U : upto tol axes = axes) by (apply upto_all; lra).
    split; [rewrite U; exact C|]. intros x [<-|[]]. exists tol. rewrite U. auto.
Qed.

(* the loop never runs out of fuel *)
Lemma loop_errors tol cell e : 0 <= tol -> forall fuel axes,
  sorted_axes axes -> (forall a, In a axes -> 0 <= ax_delta a) -> (length axes < fuel)%nat ->
  lepage_loop fuel axes (angles_of axes) tol cell = Err e ->
  exists d, 0 <= d /\ classify (angles_of (upto d axes)) (upto d axes) tol cell = Err e.
Proof.
  intros Ht. induction fuel as [|fuel IH]; intros axes S Nn L E; [lia|].
  cbn [lepage_loop] in E. destruct (classify (angles_of axes) axes tol cell) as [r|e'] eqn:C.
  - cbn [bind] in E. destruct (Rltb_spec tol (max_delta axes)) as [H|H]; [|discriminate].
    assert (NE : axes <> []) by (intros ->; cbn in H; lra).
    destruct (drop_worst_sorted axes S Nn) as [S' I'].
    pose proof (drop_worst_len axes NE) as L'.
    rewrite (angles_prefix axes) in E by lia. rewrite <- drop_worst_prefix in E by auto.
    destruct (lepage_loop fuel _ _ _ _) as [rs|] eqn:El; [discriminate|]. cbn in E. injection E as ->.
    destruct (IH (drop_worst axes)) as (d & Hd & Q); auto; [lia|].
    destruct (drop_worst_spec axes S Nn NE) as (t & Et & _ & T1 & T2).
    destruct (Rlt_dec d (max_delta axes)) as [G|G].
    + exists d. split; auto. rewrite <- upto_drop by auto. exact Q.
    + assert (M : max_delta (drop_worst axes) < max_delta axes).
      { destruct (drop_worst axes) as [|a l] eqn:Ed; [cbn; lra|]. rewrite <- Ed in *.
        destruct (max_delta_attained (drop_worst axes)) as (m & Hm & <-); auto.
        rewrite Ed; discriminate. }
      rewrite upto_all in Q by lra. exists (max_delta (drop_worst axes)).
      split; [apply max_delta_nonneg|].
      rewrite <- upto_drop by auto. rewrite upto_all by lra. exact Q.
  - cbn in E. injection E as ->. exists (max_delta axes). split; [apply max_delta_nonneg|].
    rewrite upto_all by lra. exact C.
Qed.

(* ---------------- candidate axes ---------------- *)
Lemma dual_dot cell r (u v : vec) : mmul r (tr cell) = mscale (2 * PI) mid ->
  dot (vmat u cell) (vmat v r) = 2 * PI * dot u v.
Proof.
  intros H. assert (E : dot (vmat u cell) (vmat v r) = dot (vmat v (mmul r (tr cell))) u) by vring.
  rewrite E, H. generalize (2 * PI). vring.
Qed.
Lemma ofZv_dot u v : dot (ofZv u) (ofZv v) = IZR (zdot u v).
Proof.
  destruct u, v. unfold ofZv, zdot, dot; cbn [vx vy vz Base.zx Base.zy Base.zz].
  rewrite !plus_IZR, !mult_IZR. reflexivity.
Qed.
Lemma axis_delta_nonneg cell r U h : 0 <= axis_delta cell r U h.
Proof.
  unfold axis_delta. apply Rmult_le_pos.
  - rewrite <- atan_0. destruct (Rle_lt_or_eq_dec 0 (norm (cross (vmat (ofZv U) cell) (vmat (ofZv h) r)) / Rabs (dot (vmat (ofZv U) cell) (vmat (ofZv h) r)))) as [H|H].
    + unfold Rdiv. apply Rmult_le_pos; [unfold norm; apply sqrt_pos|].
      destruct (Req_dec (dot (vmat (ofZv U) cell) (vmat (ofZv h) r)) 0) as [E|E].
      * rewrite E, Rabs_R0, Rinv_0. lra.
      * left. apply Rinv_0_lt_compat, Rabs_pos_lt, E.
    + left. apply atan_increasing. exact H.
    + rewrite <- H. lra.
  - unfold TODEGREES. pose proof PI_RGT_0. apply Rmult_le_pos; [lra|]. left. apply Rinv_0_lt_compat; lra.
Qed.
Lemma norm_zero_dot u v : norm u = 0 -> dot u v = 0.
Proof.
  intros H. unfold norm in H. apply sqrt_eq_0 in H; [|vunfold; destruct u; cbn; nra].
  destruct u as [a b c], v as [x y z]. vunfold.
  assert (a = 0) by nra. assert (b = 0) by nra. assert (c = 0) by nra. subst. ring.
Qed.

Lemma candidate_ok cell r limit U h : mmul r (tr cell) = mscale (2 * PI) mid ->
  candidate cell r limit U h =
  Ok (if (Z.abs (zdot U h) =? 2)%Z && Rltb (axis_delta cell r U h) limit
      then [Axis U (vscale (/ norm (vmat (ofZv U) cell)) (vmat (ofZv U) cell)) (axis_delta cell r U h)] else []).
Proof.
  intros H. unfold candidate. destruct (Z.eqb_spec (Z.abs (zdot U h)) 2) as [E|E]; [|reflexivity].
  assert (D : dot (vmat (ofZv U) cell) (vmat (ofZv h) r) <> 0).
  { rewrite (dual_dot _ _ _ _ H), ofZv_dot. intros Q. apply Rmult_integral in Q.
    pose proof PI_RGT_0. destruct Q as [Q|Q]; [lra|]. apply eq_IZR in Q. rewrite Q in E. discriminate. }
  destruct (Reqb_spec (dot (vmat (ofZv U) cell) (vmat (ofZv h) r)) 0) as [F|F]; [contradiction|].
  destruct (Reqb_spec (norm (vmat (ofZv U) cell)) 0) as [G|G].
  { exfalso. apply D. apply norm_zero_dot; auto. }
  cbn [orb andb]. destruct (Rltb _ _); reflexivity.
Qed.

Lemma mapM_pure {A B} (f : A -> res B) (g : A -> B) l : (forall a, f a = Ok (g a)) -> mapM f l = Ok (map g l).
Proof. intros H. induction l; cbn; auto. rewrite H, IHl. reflexivity. Qed.

Definition pairs22 := flat_map (fun U => map (fun h => (U, h)) (miller 2)) (miller 2).
Definition cand cell r limit (p : zvec * zvec) : list axis :=
  if (Z.abs (zdot (fst p) (snd p)) =? 2)%Z && Rltb (axis_delta cell r (fst p) (snd p)) limit
  then [Axis (fst p) (vscale (/ norm (vmat (ofZv (fst p)) cell)) (vmat (ofZv (fst p)) cell))
             (axis_delta cell r (fst p) (snd p))] else [].
Lemma candidates_ok cell r limit : mmul r (tr cell) = mscale (2 * PI) mid ->
  candidates cell r limit = Ok (flat_map (cand cell r limit) pairs22).
Proof.
  intros H. unfold candidates. fold pairs22.
  rewrite (mapM_pure _ (cand cell r limit)) by (intros [U h]; apply candidate_ok; auto).
  cbn. rewrite flat_map_concat_map. reflexivity.
Qed.

Lemma in_miller k u : (0 <= k)%Z -> In u (miller k) <->
  (- k <= zx u <= k /\ - k <= zy u <= k /\ - k <= zz u <= k)%Z.
Proof.
  intros Hk. unfold miller, grid.
  assert (Ar : forall x, In x (arange (- k) (k + 1)) <-> (- k <= x <= k)%Z).
  { intros x. split.
    - intros H. apply In_nth_error in H. destruct H as [n Hn].
      assert (n < length (arange (- k) (k + 1)))%nat by (apply nth_error_Some; congruence).
      rewrite arange_length in H by auto. unfold arange in Hn. rewrite zseq_nth in Hn by lia.
      injection Hn as <-. lia.
    - intros H. eapply nth_error_In. apply arange_nth. exact H. }
  rewrite in_concat. split.
  - intros (l & Hl & Hu). apply in_concat in Hl. destruct Hl as (ll & Hll & Hl).
    apply in_map_iff in Hll. destruct Hll as (i & <- & Hi). apply in_map_iff in Hl.
    destruct Hl as (j & <- & Hj). apply in_map_iff in Hu. destruct Hu as (m & <- & Hm).
    rewrite Ar in *. cbn [Base.zx Base.zy Base.zz]. lia.
  - intros (A & B & C). destruct u as [i j m]. cbn [Base.zx Base.zy Base.zz] in *.
    exists (map (fun m => Zv i j m) (arange (- k) (k + 1))). split.
    + apply in_concat. exists (map (fun j => map (fun m => Zv i j m) (arange (- k) (k + 1))) (arange (- k) (k + 1))).
      split; apply in_map_iff; [exists i|exists j]; rewrite Ar; auto.
    + apply in_map_iff. exists m. rewrite Ar; auto.
Qed.

Lemma in_candidates cell r limit a : In a (flat_map (cand cell r limit) pairs22) <->
  exists U h, In U (miller 2) /\ In h (miller 2) /\ Z.abs (zdot U h) = 2%Z /\ axis_delta cell r U h < limit /\
    a = Axis U (vscale (/ norm (vmat (ofZv U) cell)) (vmat (ofZv U) cell)) (axis_delta cell r U h).
Proof.
  rewrite in_flat_map. unfold pairs22. split.
  - intros ([U h] & HP & Ha). apply in_flat_map in HP. destruct HP as (U' & HU & HP).
    apply in_map_iff in HP. destruct HP as (h' & E & Hh). injection E as -> ->.
    unfold cand in Ha; cbn [fst snd] in Ha.
    destruct (Z.eqb_spec (Z.abs (zdot U h)) 2); [|destruct Ha].
    destruct (Rltb_spec (axis_delta cell r U h) limit); [|destruct Ha].
    destruct Ha as [<-|[]]. exists U, h. auto 6.
  - intros (U & h & HU & Hh & D & L & ->). exists (U, h). split.
    + apply in_flat_map. exists U. split; auto. apply in_map_iff. eauto.
    + unfold cand; cbn [fst snd]. rewrite (proj2 (Z.eqb_eq _ _) D).
      destruct (Rltb_spec (axis_delta cell r U h) limit); [cbn; auto|contradiction].
Qed.

(* ---------------- removing duplicates ---------------- *)
Definition zparallel (u v : zvec) : Prop :=
  (zy u * zz v = zz u * zy v /\ zz u * zx v = zx u * zz v /\ zx u * zy v = zy u * zx v)%Z.
Lemma zvec_eqb_true u v : zvec_eqb u v = true <-> u = v.
Proof.
  destruct u, v. unfold zvec_eqb; cbn [Base.zx Base.zy Base.zz]. rewrite !andb_true_iff, !Z.eqb_eq.
  split; [intros [[-> ->] ->]; auto|intros E; injection E; auto].
Qed.
Lemma related_true u v : related u v = true <->
  (u = v \/ u = zscale (-1) v \/ u = zscale 2 v \/ zscale 2 u = v).
Proof. unfold related. rewrite !orb_true_iff, !zvec_eqb_true. tauto. Qed.
Lemma related_parallel u v : related u v = true -> zparallel u v.
Proof.
  intros H. apply related_true in H. unfold zparallel.
  destruct H as [->|[->|[->|<-]]]; cbn [zscale Base.zx Base.zy Base.zz]; lia.
Qed.
Lemma only_0_2_spec u : only_0_2 u = true ->
  exists w, u = zscale 2 w /\ Zv (zx u / 2) (zy u / 2) (zz u / 2) = w.
Proof.
  destruct u as [a b c]. unfold only_0_2; cbn [forallb Base.zx Base.zy Base.zz].
  rewrite !andb_true_iff, !orb_true_iff, !Z.eqb_eq. intros H.
  destruct H as [[(Ha & Hb & Hc & _) _] _].
  exists (Zv (a / 2) (b / 2) (c / 2)). split; [|reflexivity]. unfold zscale; cbn [Base.zx Base.zy Base.zz].
  f_equal; [destruct Ha|destruct Hb|destruct Hc]; subst; reflexivity.
Qed.
Lemma halve_spec a : ax_t (halve a) = ax_t a /\ ax_delta (halve a) = ax_delta a /\
  (ax_U (halve a) = ax_U a \/ ax_U a = zscale 2 (ax_U (halve a))).
Proof.
  unfold halve. destruct (only_0_2 (ax_U a)) eqn:E; auto. cbn. split; auto. split; auto. right.
  destruct (only_0_2_spec _ E) as (w & E1 & <-). exact E1.
Qed.
Lemma dedup_sub l a : In a (dedup l) -> exists b, In b l /\ a = halve b.
Proof.
  induction l as [|b l IH]; cbn; [tauto|]. destruct (existsb _ l).
  - intros H. destruct (IH H) as (c & Hc & E). eauto.
  - intros [<-|H]; [eauto|]. destruct (IH H) as (c & Hc & E). eauto.
Qed.
Lemma dedup_sorted l : sorted_axes l -> sorted_axes (dedup l).
Proof.
  induction 1 as [|a l Ha Hl IH]; cbn; [constructor|]. destruct (existsb _ l); [exact IH|].
  constructor; [|exact IH]. intros y Hy. apply dedup_sub in Hy. destruct Hy as (b & Hb & ->).
  rewrite !(proj1 (proj2 (halve_spec _))). auto.
Qed.
Lemma zparallel_trans u v w : v <> Zv 0 0 0 -> zparallel u v -> zparallel v w -> zparallel u w.
Proof.
  destruct u as [a b c], v as [d e f], w as [g h i]. unfold zparallel; cbn [Base.zx Base.zy Base.zz].
  intros NZ (A1 & A2 & A3) (B1 & B2 & B3).
  assert (d <> 0 \/ e <> 0 \/ f <> 0)%Z as [D|[D|D]].
  { destruct (Z.eq_dec d 0), (Z.eq_dec e 0), (Z.eq_dec f 0); auto. subst. congruence. }
  all: assert (M : forall k p q, (p = q -> k * p = k * q)%Z) by (intros; congruence).
  all: pose proof (M g _ _ A1); pose proof (M g _ _ A2); pose proof (M g _ _ A3);
       pose proof (M h _ _ A1); pose proof (M h _ _ A2); pose proof (M h _ _ A3);
       pose proof (M i _ _ A1); pose proof (M i _ _ A2); pose proof (M i _ _ A3);
       pose proof (M a _ _ B1); pose proof (M a _ _ B2); pose proof (M a _ _ B3);
       pose proof (M b _ _ B1); pose proof (M b _ _ B2); pose proof (M b _ _ B3);
       pose proof (M c _ _ B1); pose proof (M c _ _ B2); pose proof (M c _ _ B3); clear M.
  - repeat split; apply (Z.mul_cancel_l _ _ d); auto; lia.
  - repeat split; apply (Z.mul_cancel_l _ _ e); auto; lia.
  - repeat split; apply (Z.mul_cancel_l _ _ f); auto; lia.
Qed.
(* every candidate direction survives *)
Lemma dedup_complete l : (forall a, In a l -> ax_U a <> Zv 0 0 0) ->
  forall a, In a l -> exists b c, In c l /\ In b (dedup l) /\ b = halve c /\ zparallel (ax_U a) (ax_U c).
Proof.
  intros NZ. induction l as [|x l IH]; intros a Ha; [destruct Ha|].
  assert (NZ' : forall a, In a l -> ax_U a <> Zv 0 0 0) by (intros; apply NZ; cbn; auto).
  specialize (IH NZ'). cbn [dedup]. destruct (existsb (fun b => related (ax_U x) (ax_U b)) l) eqn:E.
  - destruct Ha as [<-|Ha].
    + apply existsb_exists in E. destruct E as (y & Hy & R0). apply related_parallel in R0.
      destruct (IH y Hy) as (b & c & Hc & Hb & E' & P). exists b, c. split; [cbn; auto|]. split; [auto|].
      split; [auto|]. apply (zparallel_trans _ (ax_U y)); auto.
    + destruct (IH a Ha) as (b & c & Hc & Hb & E' & P). exists b, c. cbn; auto.
  - destruct Ha as [<-|Ha].
    + exists (halve x), x. cbn. repeat split; auto; ring.
    + destruct (IH a Ha) as (b & c & Hc & Hb & E' & P). exists b, c. cbn; auto.
Qed.

(* ---------------- names ---------------- *)
Definition bravais_names : list string :=
  ["CUB"; "FCC"; "BCC"; "TET"; "BCT"; "ORC"; "ORCF"; "ORCI"; "ORCC"; "HEX"; "RHL"; "MCL"; "MCLC"; "TRI"]%string.
Definition check_fine (c : check) : Prop :=
  match c with
  | Ok None => True
  | Ok (Some s) => In s bravais_names
  | Err e => In e [UnboundLocalError; LinAlgError; IndexError]
  end.
Ltac chk := repeat match goal with
  | |- context [if ?c then _ else _] => destruct c
  | |- check_fine (match ?l with _ => _ end) => destruct l
  end; cbn; auto 20.
Lemma check_cub_fine A x t : check_fine (check_cub A x t). Proof. unfold check_cub. chk. Qed.
Lemma check_hex_fine A t : check_fine (check_hex A t). Proof. unfold check_hex. chk. Qed.
Lemma check_tet_fine A x t c : check_fine (check_tet A x t c). Proof. unfold check_tet. chk. Qed.
Lemma check_rhl_fine A t : check_fine (check_rhl A t). Proof. unfold check_rhl. chk. Qed.
Lemma check_orc_fine A x t : check_fine (check_orc A x t). Proof. unfold check_orc. chk. Qed.
Lemma check_mcl_fine x t c : check_fine (check_mcl x t c). Proof. unfold check_mcl. chk. Qed.
Lemma or_else_fine a b : check_fine a -> check_fine b -> check_fine (or_else a b).
Proof. destruct a as [[|]|]; auto. Qed.
Lemma classify_fine A x t c : match classify A x t c with
  | Ok s => In s bravais_names
  | Err e => In e [UnboundLocalError; LinAlgError; IndexError]
  end.
Proof.
  unfold classify. set (r := or_else _ _).
  assert (F : check_fine r).
  { unfold r. repeat apply or_else_fine; auto using check_cub_fine, check_hex_fine, check_tet_fine,
      check_rhl_fine, check_orc_fine, check_mcl_fine. }
  destruct r as [[s|]|e]; cbn in *; auto 20.
Qed.

(* ---------------- one axis per direction ---------------- *)
Definition lexneg (u : zvec) : bool :=
  ((zx u <? 0) || ((zx u =? 0) && ((zy u <? 0) || ((zy u =? 0) && (zz u <? 0)))))%Z.

Lemma lexneg_neq U : lexneg U = true -> zscale (-1) U <> U.
Proof.
  intros N Q. pose proof (f_equal Base.zx Q) as Q1. pose proof (f_equal Base.zy Q) as Q2.
  pose proof (f_equal Base.zz Q) as Q3. destruct U as [a b c]. unfold zscale in *; cbn [Base.zx Base.zy Base.zz] in *.
  assert (a = 0)%Z by lia. assert (b = 0)%Z by lia. assert (c = 0)%Z by lia. subst. discriminate.
Qed.
Fixpoint after {A} (eqb : A -> A -> bool) (x : A) (l : list A) : list A :=
  match l with [] => [] | y :: l' => if eqb x y then l' else after eqb x l' end.
Lemma after_split {A} (eqb : A -> A -> bool) (Heq : forall a b, eqb a b = true <-> a = b) x l : In x l ->
  exists m, l = m ++ x :: after eqb x l.
Proof.
  induction l as [|y l IH]; cbn; [tauto|]. destruct (eqb x y) eqn:E.
  - intros _. apply Heq in E. subst. exists []. reflexivity.
  - intros [->|H]; [rewrite (proj2 (Heq x x) eq_refl) in E; discriminate|].
    destruct (IH H) as (m & Q). exists (y :: m). cbn. rewrite <- Q. reflexivity.
Qed.

Definition lex_check : bool :=
  forallb (fun U => negb (lexneg U) ||
    negb (existsb (zvec_eqb U) (after zvec_eqb (zscale (-1) U) (miller 2)))) (miller 2).
Lemma lex_check_ok : lex_check = true. Proof. vm_compute. reflexivity. Qed.
Lemma miller_split U : In U (miller 2) -> lexneg U = true ->
  exists m1 m2, miller 2 = m1 ++ zscale (-1) U :: m2 /\ ~ In U m2.
Proof.
  intros H N. assert (H' : In (zscale (-1) U) (miller 2)).
  { apply in_miller; [lia|]. apply in_miller in H; [|lia]. destruct U; cbn [zscale Base.zx Base.zy Base.zz] in *. lia. }
  destruct (after_split zvec_eqb zvec_eqb_true _ _ H') as (m & E).
  exists m, (after zvec_eqb (zscale (-1) U) (miller 2)). split; [exact E|].
  intros Q. pose proof lex_check_ok as C. unfold lex_check in C. rewrite forallb_forall in C.
  specialize (C U H). rewrite N in C. cbn [negb orb] in C. apply negb_true_iff in C.
  rewrite <- not_true_iff_false in C. apply C. apply existsb_exists. exists U. split; auto. apply zvec_eqb_true; auto.
Qed.

(* the last [a'] comes after every [a] *)
Definition prec {A} (a a' : A) (l : list A) : Prop := exists m1 m2, l = m1 ++ a' :: m2 /\ ~ In a m2.
Lemma prec_insert {A} (key : A -> R) (a a' x : A) l : key a = key a' ->
  prec a a' l -> prec a a' (insert_by key x l).
Proof.
  intros K (m1 & m2 & -> & N). induction m1 as [|y m1 IH]; cbn.
  - destruct (Rleb_spec (key x) (key a')).
    + exists [x], m2. auto.
    + exists [], (insert_by key x m2). split; [reflexivity|]. intros H.
      apply (Permutation_in _ (Permutation_sym (insert_by_perm key x m2))) in H.
      destruct H as [->|H]; [lra|auto].
  - destruct (Rleb (key x) (key y)).
    + exists (x :: y :: m1), m2. auto.
    + destruct IH as (p1 & p2 & E & Np). exists (y :: p1), p2. rewrite E. auto.
Qed.
Lemma prec_sort {A} (key : A -> R) (a a' : A) l : a <> a' -> key a = key a' ->
  prec a a' l -> prec a a' (sort_by key l).
Proof.
  intros NE K. induction l as [|x l IH]; intros (m1 & m2 & E & N).
  - destruct m1; discriminate.
  - cbn. fold (sort_by key l). destruct m1 as [|y m1]; cbn in E; injection E as -> ->.
    + assert (H : In a' (insert_by key a' (sort_by key m2))).
      { apply (Permutation_in _ (insert_by_perm key a' _)). cbn; auto. }
      apply in_split in H. destruct H as (p1 & p2 & Q). exists p1, p2. split; auto.
      intros H. assert (H' : In a (insert_by key a' (sort_by key m2))) by (rewrite Q; apply in_app_iff; cbn; auto).
      apply (Permutation_in _ (Permutation_sym (insert_by_perm key a' _))) in H'.
      destruct H' as [H'|H']; [congruence|]. apply (sort_by_in key m2 a) in H'. auto.
    + apply prec_insert; auto. apply IH. exists m1, m2. auto.
Qed.

Lemma axis_delta_neg cell r U h : axis_delta cell r (zscale (-1) U) h = axis_delta cell r U h.
Proof.
  unfold axis_delta. assert (E : vmat (ofZv (zscale (-1) U)) cell = vneg (vmat (ofZv U) cell)).
  { assert (E' : ofZv (zscale (-1) U) = vneg (ofZv U)).
    { destruct U; unfold ofZv, zscale, vneg; cbn [vx vy vz Base.zx Base.zy Base.zz]. rewrite !mult_IZR. f_equal; ring. }
    rewrite E'. generalize (ofZv U). vring. }
  rewrite E. generalize (vmat (ofZv U) cell) (vmat (ofZv h) r). intros t s.
  assert (C : cross (vneg t) s = vneg (cross t s)) by vring. rewrite C, norm_neg.
  rewrite dot_neg_l, Rabs_Ropp. reflexivity.
Qed.

Definition ax cell r (U h : zvec) : axis :=
  Axis U (vscale (/ norm (vmat (ofZv U) cell)) (vmat (ofZv U) cell)) (axis_delta cell r U h).
Lemma cand_eq cell r limit p : cand cell r limit p =
  if (Z.abs (zdot (fst p) (snd p)) =? 2)%Z && Rltb (axis_delta cell r (fst p) (snd p)) limit
  then [ax cell r (fst p) (snd p)] else [].
Proof. reflexivity. Qed.

Lemma cand_prec cell r limit U h :
  In (ax cell r U h) (flat_map (cand cell r limit) pairs22) -> In U (miller 2) -> In h (miller 2) ->
  Z.abs (zdot U h) = 2%Z -> axis_delta cell r U h < limit -> lexneg U = true ->
  prec (ax cell r U h) (ax cell r (zscale (-1) U) h) (flat_map (cand cell r limit) pairs22).
Proof.
  intros _ HU Hh D L N. destruct (miller_split U HU N) as (m1 & m2 & E & NI).
  assert (NEU : zscale (-1) U <> U).
  { apply lexneg_neq. exact N. }
  set (g := flat_map (cand cell r limit)). set (f := fun U : zvec => map (fun h : zvec => (U, h)) (miller 2)).
  assert (Ep : pairs22 = flat_map f m1 ++ f (zscale (-1) U) ++ flat_map f m2).
  { unfold pairs22. fold f. rewrite E. rewrite flat_map_app. cbn. reflexivity. }
  rewrite Ep. unfold g. rewrite !flat_map_app.
  assert (Hin : In (ax cell r (zscale (-1) U) h) (flat_map (cand cell r limit) (f (zscale (-1) U)))).
  { apply in_flat_map. exists (zscale (-1) U, h). split; [apply in_map_iff; eauto|].
    rewrite cand_eq; cbn [fst snd].
    assert (Z.abs (zdot (zscale (-1) U) h) = 2)%Z.
    { rewrite <- D. destruct U, h. unfold zdot, zscale; cbn [Base.zx Base.zy Base.zz]. lia. }
    rewrite (proj2 (Z.eqb_eq _ _) H), axis_delta_neg.
    destruct (Rltb_spec (axis_delta cell r U h) limit); [cbn; auto|contradiction]. }
  apply in_split in Hin. destruct Hin as (p1 & p2 & Es). rewrite Es.
  exists (flat_map (cand cell r limit) (flat_map f m1) ++ p1), (p2 ++ flat_map (cand cell r limit) (flat_map f m2)).
  split; [rewrite <- !app_assoc; reflexivity|]. intros H. apply in_app_iff in H. destruct H as [H|H].
  - assert (H' : In (ax cell r U h) (flat_map (cand cell r limit) (f (zscale (-1) U)))).
    { rewrite Es. apply in_app_iff. cbn; auto. }
    apply in_flat_map in H'. destruct H' as ([V k] & HV & Hc). apply in_map_iff in HV.
    destruct HV as (k' & EV & _). injection EV as <- <-. rewrite cand_eq in Hc; cbn [fst snd] in Hc.
    destruct (_ && _) in Hc; [|destruct Hc]. destruct Hc as [Hc|[]]. apply (f_equal ax_U) in Hc. cbn in Hc. congruence.
  - apply in_flat_map in H. destruct H as ([V k] & HV & Hc). apply in_flat_map in HV.
    destruct HV as (V' & HV' & HV). apply in_map_iff in HV. destruct HV as (k' & EV & _). injection EV as -> ->.
    rewrite cand_eq in Hc; cbn [fst snd] in Hc.
    destruct (_ && _) in Hc; [|destruct Hc]. destruct Hc as [Hc|[]]. apply (f_equal ax_U) in Hc. cbn in Hc. subst V.
    contradiction.
Qed.

(* parallel index triples with the same orientation within the search range are related *)
Definition zpar (u v : zvec) : bool :=
  ((zy u * zz v =? zz u * zy v) && (zz u * zx v =? zx u * zz v) && (zx u * zy v =? zy u * zx v))%Z.
Definition par_check : bool :=
  forallb (fun u => zvec_eqb u (Zv 0 0 0) || lexneg u || forallb (fun v =>
     zvec_eqb v (Zv 0 0 0) || lexneg v || negb (zpar u v) || related u v) (miller 2)) (miller 2).
Lemma par_check_ok : par_check = true. Proof. vm_compute. reflexivity. Qed.
Lemma par_related u v : In u (miller 2) -> In v (miller 2) -> u <> Zv 0 0 0 -> v <> Zv 0 0 0 ->
  lexneg u = false -> lexneg v = false -> zparallel u v -> related u v = true.
Proof.
  intros Hu Hv NU NV LU LV P. pose proof par_check_ok as C. unfold par_check in C. rewrite forallb_forall in C.
  specialize (C u Hu). rewrite LU in C. destruct (zvec_eqb u (Zv 0 0 0)) eqn:Eu; [apply zvec_eqb_true in Eu; contradiction|].
  cbn [orb] in C. rewrite forallb_forall in C. specialize (C v Hv). rewrite LV in C.
  destruct (zvec_eqb v (Zv 0 0 0)) eqn:Ev; [apply zvec_eqb_true in Ev; contradiction|]. cbn [orb] in C.
  destruct P as (P1 & P2 & P3). unfold zpar in C. rewrite P1, P2, P3, !Z.eqb_refl in C. exact C.
Qed.

Section Unique.
  Variables (cell r : mat) (limit : R).
  Let L0 := flat_map (cand cell r limit) pairs22.
  Let L := sort_by ax_delta L0.

  Lemma in_L a : In a L -> exists U h, In U (miller 2) /\ In h (miller 2) /\ Z.abs (zdot U h) = 2%Z /\
    axis_delta cell r U h < limit /\ a = ax cell r U h.
  Proof. unfold L. rewrite sort_by_in. apply in_candidates. Qed.
  Lemma zdot_nonzero U h : Z.abs (zdot U h) = 2%Z -> U <> Zv 0 0 0.
  Proof. intros H ->. unfold zdot in H; cbn in H. discriminate. Qed.

  Lemma kept_lexpos l1 a l2 : L = l1 ++ a :: l2 ->
    existsb (fun b => related (ax_U a) (ax_U b)) l2 = false -> lexneg (ax_U a) = false.
  Proof.
    intros E X. assert (Ha : In a L) by (rewrite E; apply in_app_iff; cbn; auto).
    destruct (in_L a Ha) as (U & h & HU & Hh & D & Lt & ->). cbn.
    destruct (lexneg U) eqn:N; [|reflexivity]. exfalso.
    assert (NEa : ax cell r U h <> ax cell r (zscale (-1) U) h).
    { intros Q. apply (f_equal ax_U) in Q. apply (lexneg_neq U N). symmetry. exact Q. }
    assert (P : prec (ax cell r U h) (ax cell r (zscale (-1) U) h) L).
    { apply prec_sort; [exact NEa|cbn; symmetry; apply axis_delta_neg|].
      apply cand_prec; auto. apply (sort_by_in ax_delta L0). exact Ha. }
    destruct P as (m1 & m2 & E2 & NI). rewrite <- not_true_iff_false in X. apply X.
    apply existsb_exists. exists (ax cell r (zscale (-1) U) h). split.
    - rewrite E in E2. clear - E2 NI NEa.
      set (a := ax cell r U h) in *. set (a' := ax cell r (zscale (-1) U) h) in *. clearbody a a'.
      revert m1 E2. induction l1 as [|y l1 IH]; intros [|z m1] E2; cbn in E2; injection E2 as E3 E4.
      + exfalso. apply NEa. exact E3.
      + subst l2. apply in_app_iff. cbn; auto.
      + exfalso. apply NI. rewrite <- E4. apply in_app_iff. cbn; auto.
      + eapply IH; eauto.
    - cbn. apply related_true. right. left. destruct U; unfold zscale; cbn [Base.zx Base.zy Base.zz]. f_equal; lia.
  Qed.

  Lemma dedup_kept_lexpos l : forall l1, L = l1 ++ l -> forall b, In b (dedup l) ->
    exists c, In c l /\ b = halve c /\ lexneg (ax_U c) = false.
  Proof.
    induction l as [|x l IH]; intros l1 E b Hb; [destruct Hb|]. cbn [dedup] in Hb.
    assert (E' : L = (l1 ++ [x]) ++ l) by (rewrite <- app_assoc; exact E).
    destruct (existsb (fun b => related (ax_U x) (ax_U b)) l) eqn:X.
    - destruct (IH _ E' b Hb) as (c & Hc & Q). exists c; cbn; tauto.
    - destruct Hb as [<-|Hb].
      + exists x. split; [cbn; auto|]. split; auto. eapply kept_lexpos; eauto.
      + destruct (IH _ E' b Hb) as (c & Hc & Q). exists c; cbn; tauto.
  Qed.

  Lemma dedup_distinct l : forall l1, L = l1 ++ l ->
    ForallOrdPairs (fun a b => ~ zparallel (ax_U a) (ax_U b)) (dedup l).
  Proof.
    induction l as [|x l IH]; intros l1 E; cbn [dedup]; [constructor|].
    assert (E' : L = (l1 ++ [x]) ++ l) by (rewrite <- app_assoc; exact E).
    destruct (existsb (fun b => related (ax_U x) (ax_U b)) l) eqn:X; [eapply IH; eauto|].
    constructor; [|eapply IH; eauto]. apply Forall_forall. intros b Hb P.
    destruct (dedup_kept_lexpos l _ E' b Hb) as (c & Hc & -> & Nc).
    pose proof (kept_lexpos _ _ _ E X) as Nx.
    assert (Hx' : In x L) by (rewrite E; apply in_app_iff; cbn; auto).
    assert (Hc' : In c L) by (rewrite E; apply in_app_iff; cbn; auto).
    destruct (in_L x Hx') as (U & h & HU & _ & DU & _ & Ex). destruct (in_L c Hc') as (V & k & HV & _ & DV & _ & Ec).
    assert (Ux : ax_U x = U) by (subst; reflexivity). assert (Vc : ax_U c = V) by (subst; reflexivity).
    assert (Q : zparallel U V).
    { destruct (halve_spec x) as (_ & _ & Hx2). destruct (halve_spec c) as (_ & _ & Hc2).
      rewrite Ux in Hx2. rewrite Vc in Hc2. clear - P Hx2 Hc2.
      destruct (ax_U (halve x)) as [a1 a2 a3], (ax_U (halve c)) as [b1 b2 b3].
      unfold zparallel in *; cbn [Base.zx Base.zy Base.zz] in *.
      destruct Hx2 as [<- | ->], Hc2 as [<- | ->]; cbn [zscale Base.zx Base.zy Base.zz]; lia. }
    rewrite <- not_true_iff_false in X. apply X. apply existsb_exists. exists c. split; auto.
    rewrite Ux, Vc. apply par_related; auto; try (eapply zdot_nonzero; eauto); congruence.
  Qed.
End Unique.
