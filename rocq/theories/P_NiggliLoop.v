(* P_NiggliLoop.v : the Niggli reduction ends for every lattice when the tolerance is zero, and
   need not end when it has its default value (C78) *)
From Verif Require Import Base M_Strings M_Numerical F_Numerical M_Geometry F_Geometry M_Niggli S_Niggli F_Niggli F_NiggliQ F_NiggliRun F_NiggliExist P_Niggli.
Open Scope R_scope.
Open Scope string_scope.
Open Scope list_scope.

(* ================= C78 ================= *)
(* With eps_relative = 0 the reduction of every lattice ends. *)
Theorem C78_exact_returns : forall cell, det cell <> 0 -> exists limit, forall sp max_iterations, (limit <= max_iterations)%Z ->
  exists cell', get_niggli sp cell 0 "wulfric" max_iterations = Ok cell' /\ same_lattice cell' cell.
Proof.
  intros cell D. destruct (bases_finite cell D (M1 (cell_params cell))) as (l & FIN).
  assert (B : basis cell (cell_params cell)).
  { exists zid. split; [left; reflexivity|]. f_equal. unfold tcell. change (ztr zid) with zid. rewrite F_Niggli.ofZ_id. destruct cell; vring. }
  exists (Z.of_nat (below l (cell_params cell))). intros sp mx L.
  destruct (loop_ends cell D l (M1 (cell_params cell)) FIN (S (Z.to_nat (mx + 1))) 0 mx (cell_params cell) zid B (Rle_refl _)) as (p' & t' & n & E & _ & _); try lia.
  assert (G : get_niggli sp cell 0 "wulfric" mx = Ok (mmul (ofZ (ztr t')) cell)).
  { unfold get_niggli. simpl lower. cbn [String.eqb Ascii.eqb Bool.eqb negb]. rewrite run_unfold, (proj2 (Reqb_false _ _)) by (apply Rabs_no_R0; auto).
    rewrite gram_params_spec, Rmult_0_l, E. reflexivity. }
  exists (mmul (ofZ (ztr t')) cell). split; [exact G|]. apply (C11_lattice_preserved _ _ _ _ _ G).
Qed.
Print Assumptions C78_exact_returns.
(* Every lattice has a Niggli cell. *)
Theorem C78_exists : forall cell, det cell <> 0 -> exists cell', same_lattice cell' cell /\ niggli_reduced cell'.
Proof.
  intros cell D. destruct (bases_finite cell D (M1 (cell_params cell))) as (l & FIN).
  assert (B : basis cell (cell_params cell)).
  { exists zid. split; [left; reflexivity|]. f_equal. unfold tcell. change (ztr zid) with zid. rewrite F_Niggli.ofZ_id. destruct cell; vring. }
  destruct (loop_ends cell D l (M1 (cell_params cell)) FIN (S (below l (cell_params cell))) 0 (Z.of_nat (below l (cell_params cell))) (cell_params cell) zid B (Rle_refl _))
    as (p' & t' & n & _ & (k & U & ->) & R); try lia.
  exists (tcell k cell). split; [|exact R]. apply unimodular_same_lattice, unimodular_tr, U.
Qed.
Print Assumptions C78_exists.
Example C78_case : det (mk 4 0 0 (-1) 5 0 (-1.000004) (-2.799995) 5) <> 0.
Proof. vunfold. lra. Qed.

(* ---------------- cube roots ---------------- *)
Lemma cube_root x : 0 < x -> Rpower (x * x * x) (1 / 3) = x.
Proof.
  intros H. replace (x * x * x) with (Rpower x 3).
  - rewrite Rpower_mult. replace (3 * (1 / 3)) with 1 by field. apply Rpower_1; auto.
  - replace 3 with (INR 3) by (cbn; lra). rewrite Rpower_pow by auto. ring.
Qed.
Lemma cube_root_bounds x y v : 0 < x -> 0 < y -> 0 < v -> x * x * x <= v <= y * y * y -> x <= Rpower v (1 / 3) <= y.
Proof.
  intros X Y V (A & B). pose proof (cube_root x X) as CX. pose proof (cube_root y Y) as CY.
  assert (0 < x * x * x) by (apply Rmult_lt_0_compat; [apply Rmult_lt_0_compat|]; auto).
  split; [rewrite <- CX|rewrite <- CY]; apply Rle_Rpower_l; lra.
Qed.
Lemma get_unfold sp cell er mx : det cell <> 0 -> get_niggli sp cell er "wulfric" mx =
  match niggli_loop (S (Z.to_nat (mx + 1))) 0 mx (cell_params cell) zid (er * Rpower (Rabs (det cell)) (1 / 3)) with
  | Ok (_, t, _) => Ok (mmul (ofZ (ztr t)) cell) | Err e => Err e end.
Proof.
  intros D. unfold get_niggli. simpl lower. cbn [String.eqb Ascii.eqb Bool.eqb negb]. rewrite run_unfold, (proj2 (Reqb_false _ _)) by (apply Rabs_no_R0; auto).
  rewrite gram_params_spec. destruct (niggli_loop _ _ _ _ _ _) as [[[p t] n]|]; reflexivity.
Qed.

(* ---------------- a cell whose reduction goes round in circles ---------------- *)
Definition spinning : mat := mk 4 0 0 (-1) 5 0 (-1.000004) (-2.799995) 5.
Definition s0 : Z := (10^12)%Z.
Definition q0 : zpar := ZP (16*10^12) (26*10^12) 33839980000041 (-25999942000000) (-8000032000000) (-8*10^12).
Definition q1 : zpar := ZP (16*10^12) (26*10^12) 33840006000041 18000058000000 15999968000000 (-8*10^12).
Definition q2 : zpar := ZP (16*10^12) (26*10^12) 33840038000041 (-26000058000000) 16000032000000 (-8*10^12).
Definition q3 : zpar := ZP (16*10^12) (26*10^12) 33839980000041 (-25999942000000) 8000032000000 (8*10^12).
Lemma s0_pos : (0 < s0)%Z. Proof. reflexivity. Qed.
Lemma at0 : (10000 * 100000000 = s0)%Z. Proof. reflexivity. Qed.
Definition eps0 : R := / 100000 * Rpower (Rabs (det spinning)) (1 / 3).
Lemma eps0_bounds : IZR (464 * 10^5) / IZR s0 <= eps0 /\ eps0 <= IZR (465 * 10^5) / IZR s0.
Proof.
  assert (E : Rabs (det spinning) = 100) by (unfold spinning; rewrite Rabs_pos_eq; vunfold; lra). unfold eps0. rewrite E.
  destruct (cube_root_bounds 4.64 4.65 100) as (A & B); try lra. unfold s0. split; simpl IZR; lra.
Qed.
Definition zp := zpass s0 (464 * 10^5) (465 * 10^5) 10000.
Lemma round q t b q' u : zp q t = Some (b, q', u) -> pass (real s0 q) t eps0 = (b, real s0 q', u).
Proof. apply zpass_ok; [exact s0_pos|apply eps0_bounds|apply eps0_bounds|exact at0]. Qed.
Lemma moves t : (exists u, zp q0 t = Some (true, q1, u)) /\ (exists u, zp q1 t = Some (true, q2, u)) /\ (exists u, zp q2 t = Some (true, q3, u)) /\ (exists u, zp q3 t = Some (true, q1, u)).
Proof. repeat split; eexists; cbv -[zmul]; reflexivity. Qed.
Lemma spin fuel : forall c mx p t, (mx < c + Z.of_nat fuel)%Z -> (p = real s0 q0 \/ p = real s0 q1 \/ p = real s0 q2 \/ p = real s0 q3) -> niggli_loop fuel c mx p t eps0 = Err NiggliReductionFailed.
Proof.
  induction fuel as [|fuel IH]; intros c mx p t L H; cbn [niggli_loop]; destruct (Z.ltb_spec mx c); auto; try lia.
  destruct (moves t) as ((u0 & E0) & (u1 & E1) & (u2 & E2) & (u3 & E3)).
  destruct H as [->|[->|[->| ->]]]; [rewrite (round _ _ _ _ _ E0)|rewrite (round _ _ _ _ _ E1)|rewrite (round _ _ _ _ _ E2)|rewrite (round _ _ _ _ _ E3)]; apply IH; auto; lia.
Qed.
(* The default tolerance: no limit of iterations is enough for this cell (of volume 100). *)
Theorem C78_never_returns_refuted : exists cell, det cell = 100 /\ forall sp max_iterations, get_niggli sp cell (/ 100000) "wulfric" max_iterations = Err NiggliReductionFailed.
Proof.
  exists spinning. assert (E : det spinning = 100) by (unfold spinning; vunfold; lra). split; [exact E|]. intros sp mx. rewrite get_unfold by lra.
  fold eps0. rewrite (spin _ 0 mx (cell_params spinning) zid); [reflexivity|lia|]. left.
  unfold real, r, q0, s0, cell_params, spinning. cbn [pA pB pC px py pz]. unfold mk. cbn [row1 row2 row3]. f_equal; vunfold; simpl IZR; lra.
Qed.
Print Assumptions C78_never_returns_refuted.

(* ---------------- hexagonal cells written with five decimals ---------------- *)
(* The answer is not a Niggli cell, and its vectors are long. *)
Definition hexagon : mat := mk 4 0 0 (-2) 3.4641 0 (-0.00001) 0 5.
Definition sheared : mat := mk 3.2 0 0 (-1.6) 2.77129 0 (-0.00001) 0 4.
Definition last (s lo hi : Z) (n : nat) (q : zpar) : option (bool * zpar * zmat) :=
  match zpasses s lo hi 10000 n q zid with Some (q', t') => zpass s lo hi 10000 q' t' | None => None end.
Lemma run_result cell lo hi n q q' t' : det cell <> 0 ->
  IZR lo / IZR s0 <= / 100000 * Rpower (Rabs (det cell)) (1 / 3) /\ / 100000 * Rpower (Rabs (det cell)) (1 / 3) <= IZR hi / IZR s0 ->
  cell_params cell = real s0 q -> last s0 lo hi n q = Some (false, q', t') ->
  forall sp mx, (Z.of_nat n <= mx)%Z -> get_niggli sp cell (/ 100000) "wulfric" mx = Ok (mmul (ofZ (ztr t')) cell).
Proof.
  intros D (L & H) P E sp mx M. rewrite get_unfold by exact D. rewrite P.
  unfold last in E. destruct (zpasses s0 lo hi 10000 n q zid) as [[b u]|] eqn:Z; [|discriminate].
  replace (S (Z.to_nat (mx + 1))) with (n + S (Z.to_nat (mx + 1) - n))%nat by lia.
  rewrite (zpasses_ok s0 lo hi 10000 (/ 100000 * Rpower (Rabs (det cell)) (1 / 3)) s0_pos L H at0 n q zid b u) by (auto; lia).
  cbn [niggli_loop]. destruct (Z.ltb_spec mx (0 + Z.of_nat n)); [lia|].
  rewrite (zpass_ok s0 lo hi 10000 (/ 100000 * Rpower (Rabs (det cell)) (1 / 3)) s0_pos L H at0 b u false q' t' E). reflexivity.
Qed.
Definition t8 : zmat := Zm (-34) (-21) 0 13 8 0 0 0 1.
Theorem C78_hexagonal_refuted : exists cell cell',
  cell = mk 4 0 0 (-2) 3.4641 0 (-0.00001) 0 5 /\
  (forall sp, get_niggli sp cell (/ 100000) "wulfric" 100000 = Ok cell') /\
  160 < norm (row1 cell') /\ 100 < norm (row2 cell').
Proof.
  exists hexagon, (mmul (ofZ (ztr t8)) hexagon). split; [reflexivity|].
  assert (E : det hexagon = 69.282) by (unfold hexagon; vunfold; lra).
  split; [|split].
  - intros sp. refine (run_result hexagon 41071400 41071500 8 (ZP (16*10^12) 15999988810000 25000000000100 40000000 (-80000000) (-16*10^12))
      (ZP 15999988810000 16000000000000 25000000000100 2000000000 3240000000 16000000000000) t8 _ _ _ _ sp 100000 _).
    + lra.
    + rewrite E, Rabs_pos_eq by lra. destruct (cube_root_bounds 4.10714 4.10715 69.282) as (A & B); try lra. unfold s0. split; simpl IZR; lra.
    + unfold real, r, s0, cell_params, hexagon. cbn [pA pB pC px py pz]. unfold mk. cbn [row1 row2 row3]. f_equal; vunfold; simpl IZR; lra.
    + vm_compute. reflexivity.
    + lia.
  - unfold norm. rewrite <- (sqrt_square 160) by lra. apply sqrt_lt_1_alt. unfold hexagon, t8. vunfold. lra.
  - unfold norm. rewrite <- (sqrt_square 100) by lra. apply sqrt_lt_1_alt. unfold hexagon, t8. vunfold. lra.
Qed.
Print Assumptions C78_hexagonal_refuted.
Definition t783 : zmat := Zm 1 783 0 0 (-1) 0 0 0 1.
Definition q783 : zpar := ZP 10240000000000 10240048264100 16000000000100 50144000000 64000000 10240000000000.
Theorem C78_sheared_refuted : exists cell cell',
  cell = mk 3.2 0 0 (-1.6) 2.77129 0 (-0.00001) 0 4 /\
  (forall sp, get_niggli sp cell (/ 100000) "wulfric" 100000 = Ok cell') /\ 2507 < norm (row2 cell').
Proof.
  exists sheared, (mmul (ofZ (ztr t783)) sheared). split; [reflexivity|].
  assert (E : det sheared = 35.472512) by (unfold sheared; vunfold; lra).
  split.
  - intros sp. refine (run_result sheared 32857200 32857300 783 (ZP 10240000000000 10240048264100 16000000000100 32000000 (-64000000) (-10240000000000)) q783 t783 _ _ _ _ sp 100000 _).
    + lra.
    + rewrite E, Rabs_pos_eq by lra. destruct (cube_root_bounds 3.28572 3.28573 35.472512) as (A & B); try lra. unfold s0. split; simpl IZR; lra.
    + unfold real, r, s0, cell_params, sheared. cbn [pA pB pC px py pz]. unfold mk. cbn [row1 row2 row3]. f_equal; vunfold; simpl IZR; lra.
    + vm_compute. reflexivity.
    + lia.
  - unfold norm. rewrite <- (sqrt_square 2507) by lra. apply sqrt_lt_1_alt. unfold sheared, t783. vunfold. lra.
Qed.
Print Assumptions C78_sheared_refuted.
