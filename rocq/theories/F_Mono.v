(* F_Mono.v : the LePage model on cells with a single two-fold axis, or none *)
From Verif Require Import Base M_Numerical M_Geometry M_Cell M_Niggli M_Voronoi F_Voronoi F_Geometry M_Lepage F_Lepage F_LepageEx F_Bravais F_Angles F_Classify.
Open Scope R_scope.

(* ---------------- ranks: finitely many reals compare like small numbers ---------------- *)
Definition rank (l : list R) (x : R) : nat := length (filter (fun y => Rltb y x) l).
Lemma rank_le l x y : x <= y -> (rank l x <= rank l y)%nat.
Proof.
  intros H. unfold rank. induction l as [|z l IH]; cbn; auto. destruct (Rltb_spec z x) as [A|A], (Rltb_spec z y) as [B|B]; cbn; lia || lra.
Qed.
Lemma rank_lt l x y : In x l -> x < y -> (rank l x < rank l y)%nat.
Proof.
  intros I H. induction l as [|z l IH]; [destruct I|]. unfold rank. cbn. destruct I as [->|I].
  - destruct (Rltb_spec x x) as [A|A]; [lra|]. destruct (Rltb_spec x y) as [B|B]; [|lra]. cbn. pose proof (rank_le l x y ltac:(lra)). unfold rank in *. lia.
  - specialize (IH I). unfold rank in IH. destruct (Rltb_spec z x) as [A|A], (Rltb_spec z y) as [B|B]; cbn; try lia. lra.
Qed.
Lemma rank_leb l x y : In y l -> Rleb x y = Nat.leb (rank l x) (rank l y).
Proof.
  intros Y. destruct (Nat.leb_spec (rank l x) (rank l y)) as [H|H].
  - apply Rleb_true. apply Rnot_lt_le. intros K. pose proof (rank_lt l y x Y K). lia.
  - apply not_true_is_false. rewrite Rleb_true. intros K. pose proof (rank_le l x y K). lia.
Qed.
Lemma rank_bound l x : In x l -> (rank l x < length l)%nat.
Proof.
  intros I. unfold rank. induction l as [|z l IH]; [destruct I|]. cbn. destruct I as [->|I].
  - destruct (Rltb_spec x x) as [A|A]; [lra|]. apply Nat.lt_succ_r. clear. induction l as [|z l IH]; cbn; auto. destruct (Rltb z x); cbn; lia.
  - specialize (IH I). destruct (Rltb z x); cbn; lia.
Qed.
Lemma Rleb_sqrt x y : 0 <= x -> 0 <= y -> Rleb (sqrt x) (sqrt y) = Rleb x y.
Proof.
  intros X Y. destruct (Rleb_spec x y) as [H|H].
  - apply Rleb_true. apply sqrt_le_1; auto.
  - apply not_true_is_false. rewrite Rleb_true. apply Rlt_not_le. apply sqrt_lt_1; auto. lra.
Qed.

(* ---------------- the plane perpendicular to the axis ---------------- *)
(* which of the four lengths |b + c|, |b|, |b - c|, |c| *)
Definition cls (u : zvec) : nat := match (zy u * zz u)%Z with 1%Z => 0 | (-1)%Z => 2 | _ => if (zz u =? 0)%Z then 1 else 3 end%nat.
Definition cls_fits (i : zvec) : bool :=
  match cls i with
  | 0%nat => (zy i * zy i =? 1) && (zz i * zz i =? 1) && (zy i * zz i =? 1) | 1%nat => (zy i * zy i =? 1) && (zz i =? 0)
  | 2%nat => (zy i * zy i =? 1) && (zz i * zz i =? 1) && (zy i * zz i =? -1) | _ => (zy i =? 0) && (zz i * zz i =? 1)
  end%Z.
Definition plane (e : zvec) : list zvec := filter (fun i => negb (zvec_eqb i (Zv 0 0 0)) && (zdot i e =? 0)%Z) (miller 1).
Definition good (e : zvec) (det : Z) (r : list nat) : bool :=
  let le x y := Nat.leb (nth (cls x) r 0%nat) (nth (cls y) r 0%nat) in
  match bsort le (plane e) with x :: _ :: y :: _ => (Z.abs (zdet3 x e y) =? det)%Z | _ => false end.
(* |b + c| and |b - c| are not both at most |b| and at most |c| *)
Definition possible (r : list nat) : bool :=
  match r with [f; b; g; c] => negb (Nat.leb f b && Nat.leb f c && Nat.leb g b && Nat.leb g c) | _ => false end.
Definition ranks4 : list (list nat) :=
  flat_map (fun a => flat_map (fun b => flat_map (fun c => map (fun d => [a; b; c; d]) (seq 0 4)) (seq 0 4)) (seq 0 4)) (seq 0 4).
Lemma in_ranks4 a b c d : (a < 4 -> b < 4 -> c < 4 -> d < 4 -> In [a; b; c; d] ranks4)%nat.
Proof.
  intros. unfold ranks4. apply in_flat_map. exists a. split; [apply in_seq; lia|]. apply in_flat_map. exists b. split; [apply in_seq; lia|].
  apply in_flat_map. exists c. split; [apply in_seq; lia|]. apply in_map_iff. exists d. split; auto. apply in_seq; lia.
Qed.
Definition mono_ok (e : zvec) (det : Z) : bool := forallb (fun r => if possible r then good e det r else true) ranks4.

Definition along (e : zvec) (p : zvec * zvec) : bool := zvec_eqb (zcross (fst p) e) (Zv 0 0 0) && zvec_eqb (zcross (snd p) e) (Zv 0 0 0).
Lemma along_scale u e : zx e = 1%Z -> zcross u e = Zv 0 0 0 -> ofZv u = vscale (IZR (zx u)) (ofZv e).
Proof.
  intros E C. unfold zcross in C. injection C as C1 C2 C3. rewrite E in *.
  assert (zy u = zx u * zy e)%Z by lia. assert (zz u = zx u * zz e)%Z by lia.
  unfold ofZv, vscale; cbn [vx vy vz]. rewrite <- !mult_IZR. f_equal; f_equal; lia.
Qed.

(* ---------------- a single axis ---------------- *)
Lemma one_axis cell r limit e k : get_reciprocal cell = Ok r -> zx e = 1%Z -> k <> 0 -> vmat (ofZv e) (metric cell) = vscale k (ofZv e) ->
  (forall U h, In U (miller 2) -> In h (miller 2) -> zeven (U, h) = true ->
     (axis_delta cell r U h = 0 /\ zcross U e = Zv 0 0 0) \/ limit <= axis_delta cell r U h /\ axis_delta cell r U h <> 0) ->
  isolated cell r limit (along e).
Proof.
  intros R E K M H U h HU Hh Z. pose proof (delta_zero_iff cell r U h (reciprocal_dual _ _ R) Z) as Q.
  assert (NU : zdot U h <> 0%Z).
  { unfold zeven in Z; cbn [fst snd] in Z. intros N. rewrite N in Z. discriminate. }
  unfold along; cbn [fst snd]. destruct (zvec_eqb (zcross U e) (Zv 0 0 0)) eqn:EU; cbn [andb].
  - apply zvec_eqb_true in EU. pose proof (along_scale U e E EU) as SU. destruct (zvec_eqb (zcross h e) (Zv 0 0 0)) eqn:Eh.
    + apply zvec_eqb_true in Eh. pose proof (along_scale h e E Eh) as Sh. apply Q. exists (IZR (zx U) * k / IZR (zx h)).
      assert (NH : IZR (zx h) <> 0).
      { intros N. rewrite N in Sh. assert (ofZv h = V3 0 0 0) as H0 by (rewrite Sh; generalize (ofZv e); clear; vring).
        unfold ofZv in H0. injection H0 as A B C. apply eq_IZR in A, B, C. apply NU. unfold zdot. rewrite A, B, C. ring. }
      rewrite SU, Sh, vmat_scale, M, !vscale_scale. f_equal. field. exact NH.
    + destruct (H U h HU Hh Z) as [(D & _)|(D & _)]; auto. exfalso. apply Q in D. destruct D as (j & J).
      rewrite SU, vmat_scale, M, vscale_scale in J.
      assert (NJ : j <> 0).
      { intros N. rewrite N in J. assert (IZR (zx U) * k = 0) as N0.
        { apply (f_equal vx) in J. unfold vscale, ofZv in J; cbn [vx] in J. rewrite E in J. lra. }
        apply Rmult_integral in N0. destruct N0 as [N0|N0]; auto. apply eq_IZR in N0. rewrite N0 in SU.
        assert (ofZv U = V3 0 0 0) as H0 by (rewrite SU; generalize (ofZv e); clear; vring).
        unfold ofZv in H0. injection H0 as A B C. apply eq_IZR in A, B, C. apply NU. unfold zdot. rewrite A, B, C. ring. }
      assert (X : cross (ofZv h) (ofZv e) = V3 0 0 0).
      { assert (Y : vscale j (cross (ofZv h) (ofZv e)) = V3 0 0 0).
        { transitivity (cross (vscale j (ofZv h)) (ofZv e)); [generalize (ofZv h) (ofZv e); clear; vring|]. rewrite <- J. generalize (IZR (zx U) * k) (ofZv e); clear; vring. }
        rewrite <- (vscale_1 (cross (ofZv h) (ofZv e))). replace 1 with (/ j * j) by (field; auto). rewrite <- vscale_scale, Y. clear. vunfold. vcomp; ring. }
      rewrite ofZv_cross in X. unfold ofZv in X. injection X as A B C. apply eq_IZR in A, B, C.
      assert (zcross h e = Zv 0 0 0) as W by (unfold zcross in *; cbn in A, B, C; f_equal; assumption). rewrite W in Eh. discriminate.
  - destruct (H U h HU Hh Z) as [(_ & D)|(D & _)]; auto. rewrite D in EU. discriminate.
Qed.

Lemma plane_perpendicular cell e k tol : 0 < tol <= k -> vmat (ofZv e) (metric cell) = vscale k (ofZv e) ->
  perpendicular e cell tol = sort_by (fun x => norm (vmat (ofZv x) cell)) (plane e).
Proof.
  intros T M. unfold perpendicular, plane. f_equal. apply filter_ext. intros i. f_equal.
  assert (E : dot (vmat (ofZv i) cell) (vmat (ofZv e) cell) = k * IZR (zdot i e)).
  { rewrite <- ofZv_dot. transitivity (dot (vmat (ofZv e) cell) (vmat (ofZv i) cell)); [generalize (vmat (ofZv i) cell) (vmat (ofZv e) cell); clear; vring|].
    rewrite dot_metric, M. generalize (ofZv i) (ofZv e); clear; vring. }
  rewrite E. destruct (Z.eqb_spec (zdot i e) 0) as [Z|Z].
  - rewrite Z, Rmult_0_r, Rabs_R0. apply Rltb_true. lra.
  - apply not_true_is_false. rewrite Rltb_true, Rabs_mult, (Rabs_right k), <- abs_IZR by lra.
    assert (A : (1 <= Z.abs (zdot i e))%Z) by lia. apply IZR_le in A. nra.
Qed.

Lemma mono_check cell e k tol B C E det : 0 < tol <= k -> vmat (ofZv e) (metric cell) = vscale k (ofZv e) -> 0 < B + C ->
  (forall i, zdot i e = 0%Z -> dot (vmat (ofZv i) (metric cell)) (ofZv i) = IZR (zy i * zy i) * B + IZR (zy i * zz i) * (2 * E) + IZR (zz i * zz i) * C) ->
  forallb cls_fits (plane e) = true ->
  mono_ok e det = true ->
  exists a c, get_perpendicular_shortest e cell tol = Ok (a, c) /\ Z.abs (zdet3 a e c) = det.
Proof.
  intros T M BC Q CL OK. unfold get_perpendicular_shortest. rewrite (plane_perpendicular _ _ _ _ T M).
  set (f := B + C + 2 * E). set (g := B + C - 2 * E). set (l := [f; B; g; C]).
  set (rs := [rank l f; rank l B; rank l g; rank l C]).
  assert (V : forall i, In i (plane e) -> dot (vmat (ofZv i) cell) (vmat (ofZv i) cell) = nth (cls i) l 0).
  { intros i I. rewrite dot_metric, Q by (apply filter_In in I; destruct I as (_ & I); apply andb_true_iff in I; apply Z.eqb_eq; apply I).
    rewrite forallb_forall in CL. specialize (CL i I). unfold cls_fits in CL.
    assert (CB : (cls i < 4)%nat) by (unfold cls; destruct (zy i * zz i)%Z as [|[]|[]], (zz i =? 0)%Z; lia).
    destruct (cls i) as [|[|[|[|]]]]; [| | | |lia]; rewrite !andb_true_iff, !Z.eqb_eq in CL; cbn [nth l]; unfold f, g.
    - destruct CL as ((A1 & A2) & A3). rewrite A1, A2, A3. lra.
    - destruct CL as (A1 & A2). rewrite A1, A2, Z.mul_0_r. cbn. lra.
    - destruct CL as ((A1 & A2) & A3). rewrite A1, A2, A3. lra.
    - destruct CL as (A1 & A2). rewrite A2, A1, Z.mul_0_l. cbn. lra. }
  assert (S : sort_by (fun x => norm (vmat (ofZv x) cell)) (plane e)
     = bsort (fun x y => Nat.leb (nth (cls x) rs 0%nat) (nth (cls y) rs 0%nat)) (plane e)).
  { apply sort_ext. intros x y X Y. unfold norm. rewrite Rleb_sqrt.
    - rewrite !V by auto. assert (CB : forall i, (cls i < 4)%nat).
      { intros i. unfold cls. destruct (zy i * zz i)%Z as [|[]|[]], (zz i =? 0)%Z; lia. }
      assert (N : forall i, nth (cls i) rs 0%nat = rank l (nth (cls i) l 0)).
      { intros i. pose proof (CB i). destruct (cls i) as [|[|[|[|]]]]; try reflexivity; lia. }
      rewrite !N. apply rank_leb. apply nth_In. apply CB.
    - generalize (vmat (ofZv x) cell). intros w; destruct w; vunfold; nra.
    - generalize (vmat (ofZv y) cell). intros w; destruct w; vunfold; nra. }
  rewrite S. unfold mono_ok in OK. rewrite forallb_forall in OK.
  assert (I : In rs ranks4).
  { apply in_ranks4; (apply (rank_bound l); cbn; tauto). }
  assert (P : possible rs = true).
  { cbn [possible rs]. rewrite <- !rank_leb by (cbn; tauto). apply negb_true_iff. apply not_true_is_false. rewrite !andb_true_iff, !Rleb_true.
    unfold f, g. lra. }
  specialize (OK rs I). rewrite P in OK. unfold good in OK. destruct (bsort _ (plane e)) as [|a [|b [|c t]]]; try discriminate.
  exists a, c. split; [reflexivity|]. apply Z.eqb_eq in OK. exact OK.
Qed.

Lemma mono_run spglib cell0 cell r tol nn limit e k B C E det : lepage_cell spglib cell0 nn = Ok cell -> get_reciprocal cell = Ok r -> 0 < limit ->
  zx e = 1%Z -> 0 < Rabs tol <= k -> vmat (ofZv e) (metric cell) = vscale k (ofZv e) -> 0 < B + C ->
  (forall i, zdot i e = 0%Z -> dot (vmat (ofZv i) (metric cell)) (ofZv i) = IZR (zy i * zy i) * B + IZR (zy i * zz i) * (2 * E) + IZR (zz i * zz i) * C) ->
  (forall U h, In U (miller 2) -> In h (miller 2) -> zeven (U, h) = true ->
     (axis_delta cell r U h = 0 /\ zcross U e = Zv 0 0 0) \/ limit <= axis_delta cell r U h /\ axis_delta cell r U h <> 0) ->
  zdedup (exact_us (along e)) = [e] ->
  forallb cls_fits (plane e) = true ->
  mono_ok e det = true ->
  lepage spglib cell0 tol nn limit = Ok (if (det =? 1)%Z then "MCL" else if (det =? 2)%Z then "MCLC" else "TRI")%string.
Proof.
  intros CE R L E1 T M BC Q H D CL OK.
  rewrite (run_exact spglib cell0 cell r tol nn limit (along e) [e] CE R L); [|apply (one_axis cell r limit e k); auto; lra|exact D].
  destruct (mono_check cell e k (Rabs tol) B C E det T M BC Q CL OK) as (a & c & G & Dt).
  cbn [map]. unfold classify. replace (check_cub (angles_of [exact_axis cell e]) [exact_axis cell e] (Rabs tol)) with (@Ok (option string) None) by reflexivity.
  replace (check_hex (angles_of [exact_axis cell e]) (Rabs tol)) with (@Ok (option string) None) by reflexivity.
  replace (check_tet (angles_of [exact_axis cell e]) [exact_axis cell e] (Rabs tol) cell) with (@Ok (option string) None) by reflexivity.
  replace (check_rhl (angles_of [exact_axis cell e]) (Rabs tol)) with (@Ok (option string) None) by reflexivity.
  replace (check_orc (angles_of [exact_axis cell e]) [exact_axis cell e] (Rabs tol)) with (@Ok (option string) None) by reflexivity.
  cbn [or_else]. unfold check_mcl. change (ax_U (exact_axis cell e)) with e. rewrite G. cbv zeta. rewrite Dt.
  destruct (det =? 1)%Z; [reflexivity|]. destruct (det =? 2)%Z; reflexivity.
Qed.

(* ---------------- no axis ---------------- *)
Lemma no_axis_run spglib cell0 cell r tol nn limit : lepage_cell spglib cell0 nn = Ok cell -> get_reciprocal cell = Ok r -> 0 < limit ->
  (forall U h, In U (miller 2) -> In h (miller 2) -> zeven (U, h) = true -> limit <= axis_delta cell r U h) ->
  lepage spglib cell0 tol nn limit = Ok "TRI"%string.
Proof.
  intros CE R L H. rewrite (run_exact spglib cell0 cell r tol nn limit (fun _ => false) [] CE R L).
  - reflexivity.
  - intros U h HU Hh Z. auto.
  - unfold exact_us. replace (filter _ pairs22) with (@nil (zvec * zvec)); [reflexivity|]. symmetry.
    generalize pairs22. intros l. induction l as [|p l IH]; auto. cbn [filter]. rewrite andb_false_r. exact IH.
Qed.
