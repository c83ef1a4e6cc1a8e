(* P_Niggli.v : properties C11, C12, C13 *)
From Verif Require Import Base M_Strings M_Numerical F_Numerical M_Geometry F_Geometry
  M_Niggli S_Niggli F_Niggli F_NiggliQ.
Open Scope R_scope.

Lemma run_unfold cell er mx : niggli_run cell er mx =
  if Reqb (Rabs (det cell)) 0 then Err ValueError
  else niggli_loop (S (Z.to_nat (mx + 1))) 0 mx (gram_params cell) zid (er * Rpower (Rabs (det cell)) (1 / 3)).
Proof. reflexivity. Qed.
Lemma wulfric_ok sp cell er mx cell' : get_niggli sp cell er "wulfric" mx = Ok cell' ->
  exists p t n, niggli_run cell er mx = Ok (p, t, n) /\ cell' = mmul (ofZ (ztr t)) cell.
Proof.
  unfold get_niggli. simpl. intros H. destruct (niggli_run cell er mx) as [[[p t] n]|]; [|discriminate].
  injection H as <-. eauto.
Qed.
Lemma abs_nz x : Reqb (Rabs x) 0 = false -> x <> 0.
Proof. intros H E. apply Reqb_false in H. rewrite E, Rabs_R0 in H. auto. Qed.

(* ================= C11 ================= *)
Theorem C11_lattice_preserved : forall sp cell eps_relative max_iterations cell',
  get_niggli sp cell eps_relative "wulfric" max_iterations = Ok cell' ->
  same_lattice cell' cell /\
  get_volume (VolCell cell') = get_volume (VolCell cell) /\
  exists k, unimodular k /\ cell' = mmul (ofZ k) cell.
Proof.
  intros sp cell er mx cell' H. apply wulfric_ok in H. destruct H as (p & t & n & R & ->).
  rewrite run_unfold in R. destruct (Reqb (Rabs (det cell)) 0); [discriminate|].
  assert (U : unimodular (ztr t)).
  { apply unimodular_tr. eapply loop_uni; [|exact R]. left; reflexivity. }
  split; [apply unimodular_same_lattice; auto|]. split; [|eauto].
  cbn. f_equal. rewrite det_mmul, ofZ_det. destruct U as [-> | ->].
  - f_equal; ring.
  - replace (-1 * det cell) with (- det cell) by ring. apply Rabs_Ropp.
Qed.
Print Assumptions C11_lattice_preserved.

(* ================= C13 ================= *)
(* The loop makes at most max_iterations + 1 passes, and exhausting them is reported. *)
Theorem C13_bounded : forall cell eps_relative max_iterations,
  match niggli_run cell eps_relative max_iterations with
  | Ok (_, _, passes) => (1 <= passes <= max_iterations + 1)%Z
  | Err e => (det cell = 0 /\ e = ValueError) \/ (det cell <> 0 /\ e = NiggliReductionFailed)
  end.
Proof.
  intros cell er mx. rewrite run_unfold. destruct (Reqb (Rabs (det cell)) 0) eqn:Z0.
  - left. apply Reqb_true in Z0. split; auto. destruct (Req_dec (det cell) 0); auto.
    exfalso. apply (Rabs_no_R0 _ H Z0).
  - apply abs_nz in Z0. set (e := _ * _). set (p := gram_params cell).
    destruct (loop_fuel (S (Z.to_nat (mx + 1))) 0 mx p zid e) as [[[[p' t'] n'] E]|E]; try lia.
    + rewrite E. apply loop_bound in E. lia.
    + rewrite E. auto.
Qed.
Print Assumptions C13_bounded.
Theorem C13_negative_limit : forall sp cell eps_relative max_iterations,
  (max_iterations < 0)%Z -> det cell <> 0 ->
  get_niggli sp cell eps_relative "wulfric" max_iterations = Err NiggliReductionFailed.
Proof.
  intros sp cell er mx H D. unfold get_niggli. simpl. rewrite run_unfold.
  rewrite (proj2 (Reqb_false _ _)) by (apply Rabs_no_R0; auto).
  cbn [niggli_loop]. destruct (Z.ltb_spec mx 0); [reflexivity|lia].
Qed.
Print Assumptions C13_negative_limit.
Theorem C13_rejects : forall sp cell eps_relative implementation max_iterations,
  (lower implementation <> "spglib" -> lower implementation <> "wulfric" ->
     get_niggli sp cell eps_relative implementation max_iterations = Err ValueError) /\
  (det cell = 0 -> get_niggli sp cell eps_relative "wulfric" max_iterations = Err ValueError).
Proof.
  intros sp cell er im mx. split.
  - intros N1 N2. unfold get_niggli. apply String.eqb_neq in N1, N2. rewrite N1, N2. reflexivity.
  - intros D. unfold get_niggli. simpl. rewrite run_unfold, D, Rabs_R0.
    rewrite (proj2 (Reqb_true 0 0)) by auto. reflexivity.
Qed.
Print Assumptions C13_rejects.
(* The other implementation is the one of spglib, if it is installed. *)
Theorem C13_external : forall niggli_reduce cell eps_relative implementation max_iterations,
  lower implementation = "spglib" ->
  get_niggli (Some niggli_reduce) cell eps_relative implementation max_iterations = niggli_reduce cell eps_relative /\
  get_niggli None cell eps_relative implementation max_iterations = Err ImportError.
Proof. intros nr cell er im mx H. unfold get_niggli. rewrite H. split; reflexivity. Qed.
Print Assumptions C13_external.
Example C13_nonvacuous : lower "GRosse" <> "spglib" /\ lower "GRosse" <> "wulfric" /\ lower "WulFric" = "wulfric".
Proof. repeat split; discriminate. Qed.

(* ================= C12 ================= *)
(* On return the tracked six numbers meet every Niggli condition within the tolerance. *)
Theorem C12_tracked_reduced : forall cell eps_relative max_iterations p t n,
  0 <= eps_relative ->
  niggli_run cell eps_relative max_iterations = Ok (p, t, n) ->
  reduced (eps_relative * Rpower (Rabs (det cell)) (1 / 3)) p.
Proof.
  intros cell er mx p t n He H. rewrite run_unfold in H.
  destruct (Reqb (Rabs (det cell)) 0); [discriminate|].
  set (e := er * _) in *.
  assert (E0 : 0 <= e). { apply Rmult_le_pos; auto. left. apply exp_pos. }
  revert H. generalize (S (Z.to_nat (mx + 1))), 0%Z, (gram_params cell), zid.
  intros fuel. induction fuel; cbn [niggli_loop]; intros z p0 t0 H; destruct (mx <? z)%Z; try discriminate.
  destruct (pass p0 t0 e) as [[c p1] t1] eqn:P. destruct c.
  - eapply IHfuel; eauto.
  - injection H as <- <- <-. eapply exit_reduced; eauto.
Qed.
Print Assumptions C12_tracked_reduced.

(* If the metric tensor is quantised (all entries multiples of q, tolerances below q),
   the returned cell itself is Niggli reduced, exactly. *)
Theorem C12_returned_cell_reduced : forall sp cell q eps_relative max_iterations cell',
  let eps := eps_relative * Rpower (Rabs (det cell)) (1 / 3) in
  quantised q (cell_params cell) ->
  default_atol < q -> 0 <= eps < q -> eps < q * q * q ->
  get_niggli sp cell eps_relative "wulfric" max_iterations = Ok cell' ->
  niggli_reduced cell' /\ same_lattice cell' cell.
Proof.
  intros sp cell q er mx cell' eps Q Q8 E1 E3 H. split; [|eapply C11_lattice_preserved; eauto].
  apply wulfric_ok in H. destruct H as (p & t & n & R & ->).
  rewrite run_unfold in R. destruct (Reqb (Rabs (det cell)) 0) eqn:Z0; [discriminate|].
  apply abs_nz in Z0.
  assert (I : inv q cell (gram_params cell) zid).
  { split; [left; reflexivity|]. rewrite gram_params_spec. split; auto.
    unfold synced, tcell. replace (ofZ (ztr zid)) with mid by reflexivity. rewrite mmul_id_l. reflexivity. }
  apply (loop_inv q eps cell ltac:(unfold default_atol in Q8; lra) E1 E3 Q8 Z0) in R; auto.
  destruct R as [(_ & _ & S) Rd]. unfold niggli_reduced. unfold synced in S. fold (tcell t cell).
  rewrite <- S. exact Rd.
Qed.
Print Assumptions C12_returned_cell_reduced.

(* ... and the algorithm does return, within a quadratic number of passes. *)
Theorem C12_total_correctness : forall sp cell q eps_relative max_iterations,
  let eps := eps_relative * Rpower (Rabs (det cell)) (1 / 3) in
  let m := (3 * dot (row1 cell) (row1 cell) + 2 * dot (row2 cell) (row2 cell)
            + dot (row3 cell) (row3 cell)) / q in
  det cell <> 0 ->
  quantised q (cell_params cell) ->
  default_atol < q -> 0 <= eps < q -> eps < q * q * q ->
  m * (3 * m + 1) + 3 * m <= IZR max_iterations ->
  exists cell', get_niggli sp cell eps_relative "wulfric" max_iterations = Ok cell' /\
    niggli_reduced cell' /\ same_lattice cell' cell.
Proof.
  intros sp cell q er mx eps m D Q Q8 E1 E3 HM.
  assert (Hq : 0 < q) by (unfold default_atol in Q8; lra).
  assert (I : inv q cell (gram_params cell) zid).
  { split; [left; reflexivity|]. rewrite gram_params_spec. split; auto.
    unfold synced, tcell. replace (ofZ (ztr zid)) with mid by reflexivity. rewrite mmul_id_l. reflexivity. }
  assert (Em : M1 (gram_params cell) = q * m).
  { rewrite gram_params_spec. unfold M1, cell_params, m; cbn. field. lra. }
  destruct (Wt_bounds q cell D _ _ I) as [W WM].
  assert (R : exists r, niggli_loop (S (Z.to_nat (mx + 1))) 0 mx (gram_params cell) zid eps = Ok r).
  { apply (loop_terminates q eps cell Hq E1 E3 Q8 D (3 * m + 1)); auto.
    - rewrite Em. nra.
    - unfold rho. rewrite Em in *.
      assert ((3 * (q * m) - Wt (gram_params cell)) / q <= 3 * m).
      { replace (3 * m) with (3 * (q * m) / q) by (field; lra). apply div_q_le; auto. lra. }
      replace (q * m / q) with m by (field; lra). lra.
    - lia. }
  destruct R as [[[p t] n] R].
  exists (mmul (ofZ (ztr t)) cell).
  assert (G : get_niggli sp cell er "wulfric" mx = Ok (mmul (ofZ (ztr t)) cell)).
  { unfold get_niggli. simpl. rewrite run_unfold.
    rewrite (proj2 (Reqb_false _ _)) by (apply Rabs_no_R0; auto). fold eps. rewrite R. reflexivity. }
  split; [exact G|]. eapply C12_returned_cell_reduced; eauto.
Qed.
Print Assumptions C12_total_correctness.

(* an oblique integer cell of volume 1 meets the hypotheses with q = 1, default eps_relative *)
Definition example_cell := mk 1 0 0 2 1 0 3 5 1.
Lemma example_det : det example_cell = 1. Proof. unfold example_cell. vunfold. ring. Qed.
Lemma example_eps er : er * Rpower (Rabs (det example_cell)) (1 / 3) = er.
Proof.
  rewrite example_det, Rabs_R1. unfold Rpower. rewrite ln_1, Rmult_0_r, exp_0. ring.
Qed.
Example C12_nonvacuous : let eps := / 100000 * Rpower (Rabs (det example_cell)) (1 / 3) in
  det example_cell <> 0 /\ quantised 1 (cell_params example_cell) /\
  default_atol < 1 /\ 0 <= eps < 1 /\ eps < 1 * 1 * 1 /\ exists mx,
  let m := (3 * dot (row1 example_cell) (row1 example_cell) + 2 * dot (row2 example_cell) (row2 example_cell)
            + dot (row3 example_cell) (row3 example_cell)) / 1 in m * (3 * m + 1) + 3 * m <= IZR mx.
Proof.
  cbv zeta. rewrite example_eps, example_det. unfold default_atol.
  split; [lra|]. split.
  { unfold quantised, cell_params, example_cell; cbn. unfold multiple, dot; cbn.
    repeat split; [exists 1%Z|exists 5%Z|exists 35%Z|exists 22%Z|exists 6%Z|exists 4%Z]; lra. }
  split; [lra|]. split; [lra|]. split; [lra|]. exists 100000%Z.
  unfold example_cell, dot; cbn. lra.
Qed.

(* In general the tracked numbers are not those of the returned cell, and the returned
   cell can be far from reduced: for this nearly-monoclinic cell (default eps_relative)
   the result has a vector longer than every input vector. *)
Definition bad_cell := mk 1 0 0 (1/2) 1 0 (1/1000) (19/10000) 1.

Ltac litabs := repeat match goal with
  | |- context [Rabs ?x] => first [rewrite (Rabs_pos_eq x) by lra | rewrite (Rabs_left1 x) by lra]
  | H : context [Rabs ?x] |- _ => first [rewrite (Rabs_pos_eq x) in H by lra | rewrite (Rabs_left1 x) in H by lra]
  end.
Ltac nocond := unfold cond_1, cond_2, cond_5, cond_6, cond_7, cond_8; cbv zeta; rewrite ?near_iff;
  cbn [nA nB nC nxi neta nzeta]; litabs; lra.

Lemma bad_pass_1 e : e = / 100000 ->
  pass (NP 1 (5/4) (100000461/100000000) (48/10000) (1/500) 1) zid e =
  (true, NP 1 (100000461/100000000) (5/4) (48/10000) 1 (1/500), mat_2).
Proof.
  intros ->. unfold pass.
  destruct (step_1_cases (NP 1 (5/4) (100000461/100000000) (48/10000) (1/500) 1) zid (/100000)) as [[C _]|[_ ->]].
  { exfalso. revert C. nocond. }
  destruct (step_2_cases (NP 1 (5/4) (100000461/100000000) (48/10000) (1/500) 1) zid (/100000)) as [[_ ->]|[C _]].
  2:{ exfalso. apply C. nocond. }
  reflexivity.
Qed.
Lemma bad_pass_2 e : e = / 100000 ->
  pass (NP 1 (100000461/100000000) (5/4) (48/10000) 1 (1/500)) mat_2 e =
  (true, NP 1 (100000461/100000000) (5/4) (-(68/10000)) 1 (-(1/500)), Zm 1 0 1 0 0 1 0 1 0).
Proof.
  intros ->. unfold pass.
  destruct (step_1_cases (NP 1 (100000461/100000000) (5/4) (48/10000) 1 (1/500)) mat_2 (/100000)) as [[C _]|[_ ->]].
  { exfalso. revert C. nocond. }
  destruct (step_2_cases (NP 1 (100000461/100000000) (5/4) (48/10000) 1 (1/500)) mat_2 (/100000)) as [[C _]|[_ ->]].
  { exfalso. revert C. nocond. }
  assert (S3 : step_3 (NP 1 (100000461/100000000) (5/4) (48/10000) 1 (1/500)) mat_2 (/100000)
     = (false, NP 1 (100000461/100000000) (5/4) (48/10000) 1 (1/500), mat_2)).
  { unfold step_3; cbn [nxi neta nzeta]. rewrite (proj2 (cwt_gt_false _ _ _)) by lra. reflexivity. }
  rewrite S3.
  assert (S4 : step_4 (NP 1 (100000461/100000000) (5/4) (48/10000) 1 (1/500)) mat_2 (/100000)
     = (true, NP 1 (100000461/100000000) (5/4) (-(48/10000)) (-1) (-(1/500)), Zm 1 0 0 0 0 1 0 1 0)).
  { unfold step_4; cbn [nA nB nC nxi neta nzeta]. rewrite (proj2 (cwt_le_true _ _ _)) by lra.
    unfold cwt_default. rewrite default_eps_0. unfold default_atol.
    rewrite !(proj2 (cwt_gt_true _ _ _)) by lra. cbn. litabs. reflexivity. }
  rewrite S4.
  destruct (step_5_cases (NP 1 (100000461/100000000) (5/4) (-(48/10000)) (-1) (-(1/500))) (Zm 1 0 0 0 0 1 0 1 0) (/100000)) as [[C _]|[_ ->]].
  { exfalso. revert C. nocond. }
  destruct (step_6_cases (NP 1 (100000461/100000000) (5/4) (-(48/10000)) (-1) (-(1/500))) (Zm 1 0 0 0 0 1 0 1 0) (/100000)) as [[_ ->]|[C _]].
  2:{ exfalso. apply C. nocond. }
  unfold upd_6, mat_6, sgn; cbn [nA nB nC nxi neta nzeta].
  rewrite (Rltb_f 0 (-1)), (Rltb_t (-1) 0) by lra. cbn. f_equal. f_equal. f_equal; lra.
Qed.
Lemma bad_pass_3 e : e = / 100000 ->
  pass (NP 1 (100000461/100000000) (5/4) (-(68/10000)) 1 (-(1/500))) (Zm 1 0 1 0 0 1 0 1 0) e =
  (false, NP 1 (100000461/100000000) (5/4) (68/10000) 1 (1/500), Zm (-1) 0 (-1) 0 0 (-1) 0 1 0).
Proof.
  intros ->. unfold pass.
  set (t := Zm 1 0 1 0 0 1 0 1 0). set (p := NP 1 (100000461/100000000) (5/4) (-(68/10000)) 1 (-(1/500))).
  destruct (step_1_cases p t (/100000)) as [[C _]|[_ ->]]; unfold p in *.
  { exfalso. revert C. nocond. }
  destruct (step_2_cases p t (/100000)) as [[C _]|[_ E2]]; unfold p in *.
  { exfalso. revert C. nocond. }
  rewrite E2.
  assert (S3 : step_3 (NP 1 (100000461/100000000) (5/4) (-(68/10000)) 1 (-(1/500))) t (/100000)
     = (true, NP 1 (100000461/100000000) (5/4) (68/10000) 1 (1/500), Zm (-1) 0 (-1) 0 0 (-1) 0 1 0)).
  { unfold step_3; cbn [nA nB nC nxi neta nzeta]. rewrite (proj2 (cwt_gt_true _ _ _)) by lra.
    rewrite (proj2 (cwt_gt_false (-(68/10000)) 0 _)) by lra.
    rewrite (proj2 (cwt_gt_false (-(1/500)) 0 _)) by lra.
    rewrite (proj2 (cwt_gt_true 1 0 _)) by lra. litabs. f_equal. f_equal. f_equal; lra. }
  rewrite S3. clear E2 S3 p t.
  set (p := NP 1 (100000461/100000000) (5/4) (68/10000) 1 (1/500)).
  set (t := Zm (-1) 0 (-1) 0 0 (-1) 0 1 0).
  assert (S4 : step_4 p t (/100000) = (false, p, t)).
  { unfold step_4, p; cbn [nA nB nC nxi neta nzeta]. rewrite (proj2 (cwt_le_false _ _ _)) by lra. reflexivity. }
  rewrite S4.
  destruct (step_5_cases p t (/100000)) as [[C _]|[_ ->]]; [exfalso; revert C; unfold p; nocond|].
  destruct (step_6_cases p t (/100000)) as [[C _]|[_ ->]]; [exfalso; revert C; unfold p; nocond|].
  destruct (step_7_cases p t (/100000)) as [[C _]|[_ ->]]; [exfalso; revert C; unfold p; nocond|].
  destruct (step_8_cases p t (/100000)) as [[C _]|[_ ->]]; [exfalso; revert C; unfold p; nocond|].
  reflexivity.
Qed.

Lemma bad_run : niggli_run bad_cell (/ 100000) 100000 =
  Ok (NP 1 (100000461/100000000) (5/4) (68/10000) 1 (1/500), Zm (-1) 0 (-1) 0 0 (-1) 0 1 0, 3%Z).
Proof.
  rewrite run_unfold. assert (D : det bad_cell = 1) by (unfold bad_cell; vunfold; lra).
  rewrite D, Rabs_R1. rewrite (proj2 (Reqb_false 1 0)) by lra.
  set (e := _ * _). assert (E : e = / 100000).
  { unfold e, Rpower. rewrite ln_1, Rmult_0_r, exp_0. ring. }
  clearbody e.
  assert (G : gram_params bad_cell = NP 1 (5/4) (100000461/100000000) (48/10000) (1/500) 1).
  { rewrite gram_params_spec. unfold cell_params, bad_cell, dot; cbn. f_equal; lra. }
  rewrite G. replace (S (Z.to_nat (100000 + 1))) with (3 + S (Z.to_nat (100000 + 1) - 3))%nat by lia.
  cbn [plus]. cbn [niggli_loop].
  rewrite bad_pass_1 by auto. cbn [niggli_loop]. rewrite bad_pass_2 by auto. rewrite bad_pass_3 by auto.
  reflexivity.
Qed.

Theorem C12_returned_cell_reduced_refuted :
  exists cell cell' p t n,
    niggli_run cell (/ 100000) 100000 = Ok (p, t, n) /\
    (forall sp, get_niggli sp cell (/ 100000) "wulfric" 100000 = Ok cell') /\
    p <> cell_params cell' /\
    ~ reduced 1 (cell_params cell') /\
    norm (row1 cell) < norm (row3 cell') /\ norm (row2 cell) < norm (row3 cell') /\
    norm (row3 cell) < norm (row3 cell').
Proof.
  exists bad_cell, (tcell (Zm (-1) 0 (-1) 0 0 (-1) 0 1 0) bad_cell). do 3 eexists.
  split; [exact bad_run|]. split.
  { intros sp. unfold get_niggli. simpl lower. cbn [String.eqb Ascii.eqb Bool.eqb negb].
    rewrite bad_run. reflexivity. }
  assert (E : cell_params (tcell (Zm (-1) 0 (-1) 0 0 (-1) 0 1 0) bad_cell) =
     NP 1 (100000461/100000000) (13/4) (-(68/10000)) 3 (-(1/500))).
  { unfold cell_params, tcell, bad_cell. vunfold. f_equal; lra. }
  rewrite E. split.
  { intros F; injection F; lra. }
  split.
  { intros Rd. pose proof (red_eta _ _ Rd) as F. cbn in F. rewrite Rabs_pos_eq in F; lra. }
  assert (C3 : dot (row3 (tcell (Zm (-1) 0 (-1) 0 0 (-1) 0 1 0) bad_cell))
                   (row3 (tcell (Zm (-1) 0 (-1) 0 0 (-1) 0 1 0) bad_cell)) = 13/4) by (exact (f_equal nC E)).
  unfold norm. rewrite C3. unfold bad_cell, dot; cbn. repeat split; apply sqrt_lt_1_alt; lra.
Qed.
Print Assumptions C12_returned_cell_reduced_refuted.
