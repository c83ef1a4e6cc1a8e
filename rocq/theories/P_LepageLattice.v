(* P_LepageLattice.v : property C74, the answer of lepage depends on the lattice only *)
From Verif Require Import Base M_Strings M_Numerical M_Geometry F_Geometry M_Cell M_Niggli S_Niggli F_Niggli
  M_Voronoi M_Lepage P_Niggli F_Minima P_Orientation P_Minima.
Open Scope R_scope.

(* ---------------- the cell turned in space ---------------- *)
Definition turn_axis (o : mat) (a : axis) : axis := Axis (ax_U a) (vmat (ax_t a) o) (ax_delta a).

Section Turn.
  Context (o : mat) (O : orthogonal o).
  Lemma dot_t u v : dot (vmat u o) (vmat v o) = dot u v.
  Proof. apply dot_as_vmat, O. Qed.
  Lemma norm_t u : norm (vmat u o) = norm u.
  Proof. unfold norm. rewrite dot_t. reflexivity. Qed.
  Lemma cross_t u v : norm (cross (vmat u o) (vmat v o)) = norm (cross u v).
  Proof.
    unfold norm. apply f_equal.
    assert (L : forall a b, dot (cross a b) (cross a b) = dot a a * dot b b - dot a b * dot a b)
      by (intros [] []; vunfold; ring).
    rewrite !L, !dot_t. reflexivity.
  Qed.
  Lemma mul_t u m : vmat u (mmul m o) = vmat (vmat u m) o.
  Proof. rewrite vmat_mmul. reflexivity. Qed.

  Lemma delta_t c r U h : axis_delta (mmul c o) (mmul r o) U h = axis_delta c r U h.
  Proof. unfold axis_delta. cbv zeta. rewrite !mul_t, cross_t, dot_t. reflexivity. Qed.
  Lemma candidate_t c r lim U h : candidate (mmul c o) (mmul r o) lim U h =
    through (map (turn_axis o)) (candidate c r lim U h).
  Proof.
    unfold candidate. cbv zeta. rewrite delta_t, !mul_t, norm_t, dot_t.
    destruct (Z.abs (zdot U h) =? 2)%Z; [|reflexivity].
    destruct (Reqb _ 0 || Reqb _ 0); [reflexivity|]. destruct (Rltb _ lim); [|reflexivity].
    cbn [through map]. unfold turn_axis. cbn [ax_U ax_t ax_delta]. rewrite vmat_scale. reflexivity.
  Qed.
  Lemma candidates_t c r lim : candidates (mmul c o) (mmul r o) lim =
    through (map (turn_axis o)) (candidates c r lim).
  Proof.
    unfold candidates. generalize (flat_map (fun U => map (fun h => (U, h)) (miller 2)) (miller 2)). intros l.
    assert (M : mapM (fun p => candidate (mmul c o) (mmul r o) lim (fst p) (snd p)) l =
      through (map (map (turn_axis o))) (mapM (fun p => candidate c r lim (fst p) (snd p)) l)).
    { induction l as [|p l IH]; [reflexivity|]. cbn [mapM]. rewrite candidate_t, IH.
      destruct (candidate c r lim (fst p) (snd p)); [|reflexivity]. cbn [through bind].
      destruct (mapM (fun p => candidate c r lim (fst p) (snd p)) l); reflexivity. }
    rewrite M. destruct (mapM (fun p => candidate c r lim (fst p) (snd p)) l); [|reflexivity].
    cbn [through bind]. rewrite concat_map. reflexivity.
  Qed.
  Lemma sort_t l : sort_by ax_delta (map (turn_axis o) l) = map (turn_axis o) (sort_by ax_delta l).
  Proof.
    unfold sort_by. induction l as [|a l IH]; [reflexivity|]. cbn [map fold_right]. rewrite IH.
    generalize (fold_right (insert_by ax_delta) [] l). intros m. induction m as [|b m IHm]; [reflexivity|].
    cbn [map insert_by]. change (ax_delta (turn_axis o a)) with (ax_delta a).
    change (ax_delta (turn_axis o b)) with (ax_delta b). destruct (Rleb (ax_delta a) (ax_delta b)); [reflexivity|].
    cbn [map]. rewrite IHm. reflexivity.
  Qed.
  Lemma dedup_t l : dedup (map (turn_axis o) l) = map (turn_axis o) (dedup l).
  Proof.
    induction l as [|a l IH]; [reflexivity|]. cbn [map dedup].
    assert (E : existsb (fun b => related (ax_U (turn_axis o a)) (ax_U b)) (map (turn_axis o) l) =
      existsb (fun b => related (ax_U a) (ax_U b)) l).
    { clear. induction l as [|b l IH]; [reflexivity|]. cbn [map existsb]. rewrite IH. reflexivity. }
    rewrite E, IH. destruct (existsb _ l); [reflexivity|]. cbn [map]. f_equal.
    unfold halve. change (ax_U (turn_axis o a)) with (ax_U a). destruct (only_0_2 (ax_U a)); reflexivity.
  Qed.
  Lemma axes_t c lim : lepage_axes (mmul c o) lim = through (map (turn_axis o)) (lepage_axes c lim).
  Proof.
    unfold lepage_axes. rewrite recip_turn by exact O. destruct (get_reciprocal c) as [r|]; [|reflexivity].
    cbn [through bind]. rewrite candidates_t. destruct (candidates c r lim) as [l|]; [|reflexivity].
    cbn [through bind]. rewrite sort_t, dedup_t. reflexivity.
  Qed.
  Lemma U_t l : map ax_U (map (turn_axis o) l) = map ax_U l.
  Proof. rewrite map_map. reflexivity. Qed.
  Lemma angle_t a b : axes_angle (turn_axis o a) (turn_axis o b) = axes_angle a b.
  Proof. unfold axes_angle, turn_axis. cbn [ax_t]. rewrite dot_t. reflexivity. Qed.
  Lemma combine_t (n : list nat) l : combine n (map (turn_axis o) l) =
    map (fun p => (fst p, turn_axis o (snd p))) (combine n l).
  Proof. revert l. induction n as [|k n IH]; intros [|a l]; cbn; auto. rewrite IH. reflexivity. Qed.
  Lemma angles_t l : angles_of (map (turn_axis o) l) = angles_of l.
  Proof.
    unfold angles_of. cbv zeta. rewrite map_length, combine_t, map_map. apply map_ext. intros p.
    rewrite map_map. apply map_ext. intros q. cbn [fst snd]. rewrite !angle_t. reflexivity.
  Qed.
  Lemma sort_key {A} (k k' : A -> R) l : (forall x, k x = k' x) -> sort_by k l = sort_by k' l.
  Proof.
    intros H. unfold sort_by. induction l as [|a l IH]; [reflexivity|]. cbn [fold_right]. rewrite IH.
    generalize (fold_right (insert_by k') [] l). intros m. induction m as [|b m IHm]; [reflexivity|].
    cbn [insert_by]. rewrite !H, IHm. reflexivity.
  Qed.
  Lemma perp_t v c tol : perpendicular v (mmul c o) tol = perpendicular v c tol.
  Proof.
    unfold perpendicular. generalize (miller 1). intros ms. rewrite (sort_key _ (fun x => norm (vmat (ofZv x) c))).
    - apply (f_equal (sort_by _)). apply filter_ext. intros i. rewrite !mul_t, dot_t. reflexivity.
    - intros x. rewrite mul_t, norm_t. reflexivity.
  Qed.
  Lemma mcl_t l tol c : check_mcl (map (turn_axis o) l) tol (mmul c o) = check_mcl l tol c.
  Proof.
    unfold check_mcl. destruct l as [|a l]; [reflexivity|]. cbn [map].
    unfold get_perpendicular_shortest. change (ax_U (turn_axis o a)) with (ax_U a). rewrite perp_t. reflexivity.
  Qed.
  Lemma tet_t angles l tol c : check_tet angles (map (turn_axis o) l) tol (mmul c o) = check_tet angles l tol c.
  Proof.
    unfold check_tet. cbv zeta. rewrite U_t. destruct (Nat.leb 5 _); [|reflexivity].
    destruct (matches _ _ _); [|reflexivity].
    rewrite (sort_key _ (fun u => norm (vmat (ofZv u) c))); [reflexivity|].
    intros x. rewrite mul_t, norm_t. reflexivity.
  Qed.
  Lemma classify_t angles l tol c : classify angles (map (turn_axis o) l) tol (mmul c o) = classify angles l tol c.
  Proof.
    unfold classify. rewrite mcl_t, tet_t. unfold check_cub, check_orc. cbv zeta. rewrite !U_t. reflexivity.
  Qed.
  Lemma delta_max_t l : max_delta (map (turn_axis o) l) = max_delta l.
  Proof. unfold max_delta. induction l as [|a l IH]; [reflexivity|]. cbn [map fold_right]. rewrite IH. reflexivity. Qed.
  Lemma ties_t l : drop_ties (map (turn_axis o) l) = map (turn_axis o) (drop_ties l).
  Proof.
    induction l as [|a l IH]; [reflexivity|]. cbn [map drop_ties]. destruct l as [|b l]; [reflexivity|].
    cbn [map] in *. change (ax_delta (turn_axis o a)) with (ax_delta a).
    change (ax_delta (turn_axis o b)) with (ax_delta b).
    destruct (Reqb (ax_delta a) (ax_delta b)); [exact IH|reflexivity].
  Qed.
  Lemma worst_t l : drop_worst (map (turn_axis o) l) = map (turn_axis o) (drop_worst l).
  Proof.
    unfold drop_worst. rewrite <- map_rev, ties_t, map_rev. destruct (drop_ties (rev l)); cbn; auto.
  Qed.
  Lemma loop_t fuel : forall l angles tol c, lepage_loop fuel (map (turn_axis o) l) angles tol (mmul c o) =
    lepage_loop fuel l angles tol c.
  Proof.
    induction fuel as [|fuel IH]; intros l angles tol c; [reflexivity|]. cbn [lepage_loop]. cbv zeta.
    rewrite classify_t, delta_max_t, worst_t, map_length. destruct (classify angles l tol c); [|reflexivity].
    cbn [bind]. rewrite IH. reflexivity.
  Qed.
  Lemma raw_turned c tol limit sp sp' :
    lepage_all sp (mmul c o) tol true limit = lepage_all sp' c tol true limit.
  Proof.
    unfold lepage_all, lepage_cell. cbv zeta. cbn [bind]. rewrite axes_t.
    destruct (lepage_axes c limit) as [l|]; [|reflexivity]. cbn [through bind].
    rewrite angles_t, map_length. apply loop_t.
  Qed.
End Turn.

(* ================= C74 ================= *)
(* Without the reduction: the orientation of the cell does not matter, nor that of an error. *)
Theorem C74_orientation : forall spglib cell o angle_tolerance delta_max, orthogonal o ->
  lepage_all spglib (mmul cell o) angle_tolerance true delta_max =
  lepage_all spglib cell angle_tolerance true delta_max /\
  lepage spglib (mmul cell o) angle_tolerance true delta_max =
  lepage spglib cell angle_tolerance true delta_max.
Proof.
  intros sp c o tol lim O. split; [apply raw_turned; auto|]. unfold lepage.
  rewrite (raw_turned o O c tol lim sp sp). reflexivity.
Qed.
Print Assumptions C74_orientation.

(* Reduced cells of one lattice. *)
Lemma reduced_turned d1 d2 o : det d1 <> 0 -> orthogonal o -> same_lattice (mmul d1 o) d2 ->
  niggli_reduced d1 -> niggli_reduced d2 -> exists o', orthogonal o' /\ d2 = mmul d1 o'.
Proof.
  intros D O S R1 R2. apply params_isometry; auto. rewrite <- (params_turned d1 o O).
  apply C73_reduced_cell_unique; auto.
  - rewrite det_mmul. apply Rmult_integral_contrapositive_currified; auto using orth_det.
  - unfold niggli_reduced. rewrite params_turned by auto. exact R1.
Qed.

(* The default call, with any external reduction that returns reduced cells of the lattice. *)
Theorem C74_any_cell : forall f c1 c2 o angle_tolerance delta_max d1 d2,
  orthogonal o -> det c1 <> 0 -> same_lattice (mmul c1 o) c2 ->
  f c1 (1 / 100000) = Ok d1 -> f c2 (1 / 100000) = Ok d2 ->
  same_lattice d1 c1 -> same_lattice d2 c2 -> niggli_reduced d1 -> niggli_reduced d2 ->
  lepage_all (Some f) c1 angle_tolerance false delta_max = lepage_all (Some f) c2 angle_tolerance false delta_max /\
  lepage (Some f) c1 angle_tolerance false delta_max = lepage (Some f) c2 angle_tolerance false delta_max.
Proof.
  intros f c1 c2 o tol lim d1 d2 O D S F1 F2 S1 S2 R1 R2.
  assert (D1 : det d1 <> 0).
  { destruct (F_NiggliUnique.same_lattice_change c1 d1 D (same_sym _ _ S1)) as (t & U & ->).
    rewrite det_mmul, ofZ_det. destruct U as [-> | ->]; lra. }
  destruct (reduced_turned d1 d2 o D1 O) as (o' & O' & E); auto.
  { apply same_trans with (mmul c1 o); [apply turned_lattice, S1|].
    apply same_trans with c2; auto. apply same_sym, S2. }
  assert (A : lepage_all (Some f) c1 tol false lim = lepage_all (Some f) c2 tol false lim).
  { transitivity (lepage_all (Some f) d1 tol true lim).
    - unfold lepage_all, lepage_cell, get_niggli. cbv zeta.
      change (String.eqb (lower "spglib"%string) "spglib"%string) with true. cbv iota. rewrite F1. reflexivity.
    - rewrite <- (raw_turned o' O' d1 tol lim (Some f) (Some f)), <- E.
      unfold lepage_all, lepage_cell, get_niggli. cbv zeta.
      change (String.eqb (lower "spglib"%string) "spglib"%string) with true. cbv iota. rewrite F2. reflexivity. }
  split; [exact A|]. unfold lepage. rewrite A. reflexivity.
Qed.
Print Assumptions C74_any_cell.

(* The same with the reduction of wulfric done first. *)
Theorem C74_own_reduction : forall sp c1 c2 o q eps_relative max_iterations d1 d2 angle_tolerance delta_max,
  orthogonal o -> same_lattice (mmul c1 o) c2 -> well_scaled q eps_relative c1 ->
  get_niggli sp c1 eps_relative "wulfric" max_iterations = Ok d1 ->
  get_niggli sp c2 eps_relative "wulfric" max_iterations = Ok d2 ->
  lepage sp d1 angle_tolerance true delta_max = lepage sp d2 angle_tolerance true delta_max.
Proof.
  intros sp c1 c2 o q er mx d1 d2 tol lim O S W1 H1 H2.
  destruct (niggli_facts _ _ _ _ _ _ W1 H1) as (R1 & S1 & D1 & D1' & _).
  pose proof (well_scaled_lattice q er c1 c2 o O D1 S W1) as W2.
  destruct (niggli_facts _ _ _ _ _ _ W2 H2) as (R2 & S2 & D2 & D2' & _).
  destruct (reduced_turned d1 d2 o D1' O) as (o' & O' & E); auto.
  { apply same_trans with (mmul c1 o); [apply turned_lattice, S1|].
    apply same_trans with c2; auto. apply same_sym, S2. }
  rewrite E. symmetry. apply C74_orientation, O'.
Qed.
Print Assumptions C74_own_reduction.

(* A cell and another cell of its lattice, turned by 90 degrees. *)
Definition quarter := mk 0 1 0 (-1) 0 0 0 0 1.
Example C74_case : exists f, f brick (1 / 100000) = Ok brick /\
  f (mmul slanted quarter) (1 / 100000) = Ok (mmul brick quarter) /\
  forall angle_tolerance delta_max,
  lepage (Some f) brick angle_tolerance false delta_max =
  lepage (Some f) (mmul slanted quarter) angle_tolerance false delta_max.
Proof.
  assert (O : orthogonal quarter) by (unfold orthogonal, quarter; vunfold; f_equal; f_equal; ring).
  set (f := fun (c : mat) (_ : R) => if Reqb (vy (row2 c)) 2 then Ok brick else Ok (mmul brick quarter)).
  assert (F1 : f brick (1 / 100000) = Ok brick).
  { unfold f. rewrite (proj2 (Reqb_true _ _)); [reflexivity|]. unfold brick. cbn. reflexivity. }
  assert (F2 : f (mmul slanted quarter) (1 / 100000) = Ok (mmul brick quarter)).
  { unfold f. rewrite (proj2 (Reqb_false _ _)); [reflexivity|]. unfold slanted, quarter. vunfold. cbn. lra. }
  exists f. split; [exact F1|]. split; [exact F2|]. intros tol lim. destruct C72_case as [D R].
  apply (C74_any_cell f brick (mmul slanted quarter) quarter tol lim brick (mmul brick quarter)); auto.
  - apply turned_lattice, brick_same.
  - intros v. tauto.
  - apply turned_lattice, brick_same.
  - unfold niggli_reduced. rewrite params_turned by auto. exact R.
Qed.
