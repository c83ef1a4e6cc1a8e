(* F_Classify.v : the classification of the LePage model on integer angles *)
From Verif Require Import Base M_Numerical M_Geometry M_Cell M_Niggli M_Voronoi F_Voronoi F_Geometry M_Lepage F_Lepage F_LepageEx F_Bravais F_Angles.
Open Scope R_scope.

(* insertion sort with a boolean order *)
Section Bsort.
  Context {A : Type} (le : A -> A -> bool).
  Fixpoint binsert (x : A) (l : list A) : list A := match l with [] => [x] | y :: l' => if le x y then x :: l else y :: binsert x l' end.
  Definition bsort (l : list A) : list A := fold_right binsert [] l.
  Lemma binsert_in x l y : In y (binsert x l) -> y = x \/ In y l.
  Proof. induction l as [|z l IH]; cbn; [intros [H|[]]; auto|]. destruct (le x z); cbn; intros [H|H]; auto. destruct (IH H); auto. Qed.
  Lemma bsort_in l y : In y (bsort l) -> In y l.
  Proof. induction l as [|x l IH]; cbn; auto. intros H. apply binsert_in in H. destruct H; auto. Qed.
  Lemma insert_ext key x : forall l, (forall y, In y l -> Rleb (key x) (key y) = le x y) -> insert_by key x l = binsert x l.
  Proof. induction l as [|y l IH]; intros H; cbn; auto. rewrite H by (cbn; auto). destruct (le x y); auto. rewrite IH; auto. intros; apply H; cbn; auto. Qed.
  Lemma sort_ext key : forall l, (forall x y, In x l -> In y l -> Rleb (key x) (key y) = le x y) -> sort_by key l = bsort l.
  Proof.
    induction l as [|x l IH]; intros H; cbn; auto. change (insert_by key x (sort_by key l) = binsert x (bsort l)). rewrite IH by (intros; apply H; cbn; auto).
    apply insert_ext. intros y Y. apply H; cbn; auto. right. apply bsort_in; auto.
  Qed.
End Bsort.
Lemma Rleb_IZR x y : Rleb (IZR x) (IZR y) = Z.leb x y.
Proof.
  destruct (Z.leb_spec x y) as [H|H].
  - apply Rleb_true. apply IZR_le. exact H.
  - apply not_true_is_false. rewrite Rleb_true. apply IZR_lt in H. lra.
Qed.
Definition zsort : list Z -> list Z := bsort Z.leb.
Lemma sort_r_IZR l : sort_r (map IZR l) = map IZR (zsort l).
Proof.
  unfold sort_r, zsort. induction l as [|x l IH]; cbn; auto.
  change (insert_by (fun x => x) (IZR x) (sort_by (fun x => x) (map IZR l)) = map IZR (binsert Z.leb x (bsort Z.leb l))). rewrite IH.
  generalize (bsort Z.leb l). intros m. induction m as [|y m IHm]; cbn; auto. rewrite Rleb_IZR. destruct (Z.leb x y); cbn; auto. rewrite IHm. reflexivity.
Qed.
Fixpoint zclose (l m : list Z) : bool := match l, m with [], [] => true | a :: l', b :: m' => (a =? b)%Z && zclose l' m' | _, _ => false end.
Lemma all_close_IZR tol : 0 < tol <= 1 -> forall l m, all_close (map IZR l) (map IZR m) tol = zclose l m.
Proof.
  intros T. induction l as [|a l IH]; intros [|b m]; cbn; auto. rewrite IH. f_equal. rewrite <- minus_IZR, <- abs_IZR. destruct (Z.eqb_spec a b) as [E|E].
  - apply Rltb_true. replace (a - b)%Z with 0%Z by lia. cbn. lra.
  - apply not_true_is_false. rewrite Rltb_true. assert (1 <= Z.abs (a - b))%Z as H by lia. apply IZR_le in H. lra.
Qed.
Definition zsub (k : nat) (angles : list (list Z)) : list (list Z) := map (firstn k) (firstn k angles).
Lemma sub_IZR k a : sub_square k (map (map IZR) a) = map (map IZR) (zsub k a).
Proof. unfold sub_square, zsub. rewrite firstn_map, !map_map. apply map_ext. intros l. apply firstn_map. Qed.
Definition zmatches (sub target : list (list Z)) : bool := zclose (zsort (concat sub)) (zsort (concat target)).
Lemma matches_IZR tol sub target : 0 < tol <= 1 -> matches (map (map IZR) sub) (map (map IZR) target) tol = zmatches sub target.
Proof. intros T. unfold matches, zmatches. rewrite <- !concat_map, !sort_r_IZR. apply all_close_IZR. exact T. Qed.
Definition zselect (p : list Z -> bool) (sub : list (list Z)) (us : list zvec) : list zvec := map snd (filter (fun q => p (fst q)) (combine sub us)).
Lemma select_IZR (p : list R -> bool) q : (forall l, p (map IZR l) = q l) -> forall sub us, select p (map (map IZR) sub) us = zselect q sub us.
Proof.
  intros H. unfold select, zselect. induction sub as [|a sub IH]; intros [|u us]; cbn; auto. rewrite H. destruct (q a); cbn; rewrite IH; reflexivity.
Qed.

Definition zcub_row_1 := [0; 45; 45; 45; 45; 90; 90; 90; 90]%Z.
Definition zcub_row_2 := [0; 45; 45; 60; 60; 60; 60; 90; 90]%Z.
Definition zcub_target := [zcub_row_1; zcub_row_1; zcub_row_1; zcub_row_2; zcub_row_2; zcub_row_2; zcub_row_2; zcub_row_2; zcub_row_2].
Definition zcheck_cub (angles : list (list Z)) (us : list zvec) : check :=
  if Nat.leb 9 (length angles) then
    let sub := zsub 9 angles in
    let us := firstn 9 us in
    if zmatches sub zcub_target then
      match zselect (fun row => zclose (zsort row) zcub_row_1) sub us with
      | [u; v; w] =>
          let det := Z.abs (zdet3 u v w) in
          if (det =? 1)%Z then Ok (Some "CUB"%string) else if (det =? 4)%Z then Ok (Some "FCC"%string)
          else if (det =? 2)%Z then Ok (Some "BCC"%string) else Err UnboundLocalError
      | _ => Err LinAlgError
      end
    else Ok None
  else Ok None.
Lemma check_cub_IZR a axes tol : 0 < tol <= 1 -> check_cub (map (map IZR) a) axes tol = zcheck_cub a (map ax_U axes).
Proof.
  intros T. unfold check_cub, zcheck_cub. rewrite map_length. destruct (Nat.leb 9 (length a)); [|reflexivity]. cbv zeta. rewrite sub_IZR.
  change cub_target with (map (map IZR) zcub_target). rewrite matches_IZR by auto. destruct (zmatches _ _); [|reflexivity].
  rewrite (select_IZR _ (fun row => zclose (zsort row) zcub_row_1)); [reflexivity|].
  intros l. rewrite sort_r_IZR. change cub_row_1 with (map IZR zcub_row_1). apply all_close_IZR. exact T.
Qed.
Definition zhex_row := [0; 30; 30; 60; 60; 90; 90]%Z.
Definition zhex_target := ([0; 90; 90; 90; 90; 90; 90] :: [zhex_row; zhex_row; zhex_row; zhex_row; zhex_row; zhex_row])%Z.
Definition zcheck_hex (angles : list (list Z)) : check :=
  if Nat.leb 7 (length angles) then if zmatches (zsub 7 angles) zhex_target then Ok (Some "HEX"%string) else Ok None else Ok None.
Lemma check_hex_IZR a tol : 0 < tol <= 1 -> check_hex (map (map IZR) a) tol = zcheck_hex a.
Proof.
  intros T. unfold check_hex, zcheck_hex. rewrite map_length. destruct (Nat.leb 7 (length a)); [|reflexivity]. rewrite sub_IZR.
  change hex_target with (map (map IZR) zhex_target). rewrite matches_IZR by auto. reflexivity.
Qed.
Definition ztet_row_1 := [0; 90; 90; 90; 90]%Z.
Definition ztet_row_2 := [0; 45; 45; 90; 90]%Z.
Definition ztet_target := [ztet_row_1; ztet_row_2; ztet_row_2; ztet_row_2; ztet_row_2].
Definition ztet_is_z (row : list Z) : bool := zclose (zsort row) ztet_row_1.
Definition ztet_xy (angles : list (list Z)) (us : list zvec) : list zvec :=
  if Nat.leb 5 (length angles) then zselect (fun row => negb (ztet_is_z row)) (zsub 5 angles) (firstn 5 us) else [].
Definition zcheck_tet (angles : list (list Z)) (us : list zvec) (le : zvec -> zvec -> bool) : check :=
  if Nat.leb 5 (length angles) then
    let sub := zsub 5 angles in
    if zmatches sub ztet_target then
      let zs := zselect ztet_is_z sub (firstn 5 us) in
      let xy := bsort le (ztet_xy angles us) in
      match xy, rev zs with
      | x :: y :: _, z :: _ =>
          let det := Z.abs (zdet3 x y z) in
          if (det =? 1)%Z then Ok (Some "TET"%string) else if (det =? 2)%Z then Ok (Some "BCT"%string) else Err UnboundLocalError
      | _ :: _ :: _, [] => Err UnboundLocalError
      | _, _ => Err IndexError
      end
    else Ok None
  else Ok None.
Lemma check_tet_IZR a axes tol cell le : 0 < tol <= 1 ->
  (forall x y, In x (ztet_xy a (map ax_U axes)) -> In y (ztet_xy a (map ax_U axes)) ->
     Rleb (norm (vmat (ofZv x) cell)) (norm (vmat (ofZv y) cell)) = le x y) ->
  check_tet (map (map IZR) a) axes tol cell = zcheck_tet a (map ax_U axes) le.
Proof.
  intros T S. unfold check_tet, zcheck_tet. rewrite map_length. destruct (Nat.leb 5 (length a)) eqn:L5; [|reflexivity]. cbv zeta. rewrite sub_IZR.
  change tet_target with (map (map IZR) ztet_target). rewrite matches_IZR by auto. destruct (zmatches _ _); [|reflexivity].
  assert (Q : forall l, all_close (sort_r (map IZR l)) tet_row_1 tol = ztet_is_z l).
  { intros l. rewrite sort_r_IZR. change tet_row_1 with (map IZR ztet_row_1). apply all_close_IZR. exact T. }
  rewrite (select_IZR (fun row => all_close (sort_r row) tet_row_1 tol) ztet_is_z Q). rewrite (select_IZR (fun row => negb (all_close (sort_r row) tet_row_1 tol)) (fun row => negb (ztet_is_z row))) by (intros; rewrite Q; reflexivity).
  unfold ztet_xy in S |- *. rewrite L5 in S |- *. rewrite (sort_ext le) by exact S. reflexivity.
Qed.
Definition zrhl_target := [[0; 60; 60]; [0; 60; 60]; [0; 60; 60]]%Z.
Definition zcheck_rhl (angles : list (list Z)) : check :=
  if Nat.leb 3 (length angles) then if zmatches (zsub 3 angles) zrhl_target then Ok (Some "RHL"%string) else Ok None else Ok None.
Lemma check_rhl_IZR a tol : 0 < tol <= 1 -> check_rhl (map (map IZR) a) tol = zcheck_rhl a.
Proof.
  intros T. unfold check_rhl, zcheck_rhl. rewrite map_length. destruct (Nat.leb 3 (length a)); [|reflexivity]. rewrite sub_IZR.
  change rhl_target with (map (map IZR) zrhl_target). rewrite matches_IZR by auto. reflexivity.
Qed.
Definition zorc_target := [[0; 90; 90]; [0; 90; 90]; [0; 90; 90]]%Z.
Definition zcheck_orc (angles : list (list Z)) (us : list zvec) : check :=
  if Nat.leb 3 (length angles) then
    if zmatches (zsub 3 angles) zorc_target then
      match firstn 3 us with
      | [u; v; w] =>
          let det := Z.abs (zdet3 u v w) in
          if (det =? 1)%Z then Ok (Some "ORC"%string)
          else if (det =? 4)%Z then Ok (Some "ORCF"%string)
          else if (det =? 2)%Z then
            let s := zadd u (zadd v w) in
            if ((1 <? Z.gcd (zx s) (zy s)) && (1 <? Z.gcd (zx s) (zz s)) && (1 <? Z.gcd (zy s) (zz s)))%Z
            then Ok (Some "ORCI"%string) else Ok (Some "ORCC"%string)
          else Err UnboundLocalError
      | _ => Err LinAlgError
      end
    else Ok None
  else Ok None.
Lemma check_orc_IZR a axes tol : 0 < tol <= 1 -> check_orc (map (map IZR) a) axes tol = zcheck_orc a (map ax_U axes).
Proof.
  intros T. unfold check_orc, zcheck_orc. rewrite map_length. destruct (Nat.leb 3 (length a)); [|reflexivity]. rewrite sub_IZR.
  change orc_target with (map (map IZR) zorc_target). rewrite matches_IZR by auto. reflexivity.
Qed.
(* all checks but the last *)
Definition zchecks (angles : list (list Z)) (us : list zvec) (le : zvec -> zvec -> bool) : check :=
  or_else (zcheck_cub angles us) (or_else (zcheck_hex angles) (or_else (zcheck_tet angles us le)
    (or_else (zcheck_rhl angles) (zcheck_orc angles us)))).
Lemma or_else_assoc a b c : or_else (or_else a b) c = or_else a (or_else b c).
Proof. destruct a as [[|]|]; reflexivity. Qed.
Lemma classify_IZR a axes tol cell le : 0 < tol <= 1 ->
  (forall x y, In x (ztet_xy a (map ax_U axes)) -> In y (ztet_xy a (map ax_U axes)) ->
     Rleb (norm (vmat (ofZv x) cell)) (norm (vmat (ofZv y) cell)) = le x y) ->
  classify (map (map IZR) a) axes tol cell =
  (do r <- or_else (zchecks a (map ax_U axes) le) (check_mcl axes tol cell); match r with Some s => Ok s | None => Ok "TRI"%string end).
Proof.
  intros T S. unfold classify, zchecks. rewrite check_cub_IZR, check_hex_IZR, (check_tet_IZR _ _ _ _ le), check_rhl_IZR, check_orc_IZR by auto.
  rewrite !or_else_assoc. reflexivity.
Qed.

(* ---------------- comparing lengths by their forms ---------------- *)
Definition fle (a b : list Z) : bool := forallb (fun p => (fst p <=? snd p)%Z) (combine a b).
Definition flt (a b : list Z) : bool := fle a b && existsb (fun p => (fst p <? snd p)%Z) (combine a b).
Lemma fle_value : forall ps a b, Forall (fun p => 0 < p) ps -> length a = length b -> fle a b = true -> comb ps a <= comb ps b.
Proof.
  induction ps as [|p ps IH]; intros [|x a] [|y b] P L H; cbn in *; try discriminate; try lra.
  inversion P; subst. apply andb_true_iff in H. destruct H as (H1 & H2'). apply Z.leb_le, IZR_le in H1. assert (comb ps a <= comb ps b) by (apply IH; auto). nra.
Qed.
Lemma flt_value ps a b : Forall (fun p => 0 < p) ps -> length ps = length a -> length a = length b -> flt a b = true -> comb ps a < comb ps b.
Proof.
  revert ps b. induction a as [|x a IH]; intros [|p ps] [|y b] P L1 L2 H; cbn in *; try discriminate.
  unfold flt in H. cbn in H. inversion P; subst. rewrite !andb_true_iff, orb_true_iff in H. destruct H as ((H1 & H2') & [H|H]).
  - apply Z.ltb_lt, IZR_lt in H. assert (comb ps a <= comb ps b) by (apply fle_value; auto). nra.
  - apply Z.leb_le, IZR_le in H1. assert (comb ps a < comb ps b) by (apply IH; auto; unfold flt; apply andb_true_iff; auto). nra.
Qed.
Definition length_le (gs : list zmat) (x y : zvec) : bool := fle (map (zform x x) gs) (map (zform y y) gs).
Definition comparable (gs : list zmat) (l : list zvec) : bool :=
  forallb (fun x => forallb (fun y => length_le gs x y || flt (map (zform y y) gs) (map (zform x x) gs)) l) l.
Lemma length_le_sound cell ps gs l : metric cell = lin ps gs -> Forall (fun p => 0 < p) ps -> length ps = length gs -> comparable gs l = true ->
  forall x y, In x l -> In y l -> Rleb (norm (vmat (ofZv x) cell)) (norm (vmat (ofZv y) cell)) = length_le gs x y.
Proof.
  intros M P L C x y X Y. unfold comparable in C. rewrite forallb_forall in C. specialize (C x X). rewrite forallb_forall in C. specialize (C y Y).
  unfold norm. rewrite !dot_metric, M, !lin_form. assert (N : forall u, 0 <= comb ps (map (zform u u) gs)).
  { intros u. rewrite <- lin_form, <- M, <- dot_metric. generalize (vmat (ofZv u) cell). intros w; destruct w; vunfold; nra. }
  destruct (length_le gs x y) eqn:E; cbn [orb] in C.
  - apply Rleb_true. apply sqrt_le_1; auto. apply fle_value; rewrite ?map_length; auto.
  - apply not_true_is_false. rewrite Rleb_true. apply flt_value with (ps := ps) in C; rewrite ?map_length; auto. apply Rlt_not_le. apply sqrt_lt_1; auto.
Qed.

(* ---------------- one pass decides ---------------- *)
Lemma max_delta_exact cell us : max_delta (map (exact_axis cell) us) = 0.
Proof. unfold max_delta. induction us; cbn; auto. rewrite IHus. apply Rmax_left. lra. Qed.
Lemma run_exact spglib cell0 cell r tol nn limit par us : lepage_cell spglib cell0 nn = Ok cell -> get_reciprocal cell = Ok r -> 0 < limit ->
  isolated cell r limit par -> zdedup (exact_us par) = us ->
  lepage spglib cell0 tol nn limit =
  (do s <- classify (angles_of (map (exact_axis cell) us)) (map (exact_axis cell) us) (Rabs tol) cell; Ok s).
Proof.
  intros C R L I U. unfold lepage, lepage_all. rewrite C. cbn [bind]. rewrite (axes_isolated _ _ _ _ R L I), U. cbn [bind lepage_loop].
  destruct (classify _ _ _ _) as [s|e]; [|reflexivity]. cbn [bind]. rewrite max_delta_exact. destruct (Rltb_spec (Rabs tol) 0) as [Z|Z]; [|reflexivity].
  pose proof (Rabs_pos tol). lra.
Qed.
Lemma map_ax_U cell us : map ax_U (map (exact_axis cell) us) = us.
Proof. rewrite map_map. cbn. apply map_id. Qed.
(* for a family of metrics with positive parameters *)
Lemma run_family ps gs nz us name spglib cell0 cell r tol nn limit :
  lepage_cell spglib cell0 nn = Ok cell -> get_reciprocal cell = Ok r -> det cell <> 0 -> 0 < limit -> 0 < Rabs tol <= 1 ->
  (forall U h, In U (miller 2) -> In h (miller 2) -> zeven (U, h) = true -> axis_delta cell r U h = 0 \/ limit <= axis_delta cell r U h) ->
  metric cell = lin ps gs -> Forall (fun p => 0 < p) ps -> length ps = length gs -> Forall (fun n => comb ps n <> 0) nz ->
  all_decided nz gs = true -> zdedup (exact_us (zero_pair gs)) = us -> known_angles gs us = true ->
  comparable gs (ztet_xy (zangles gs us) us) = true ->
  zchecks (zangles gs us) us (length_le gs) = Ok (Some name) ->
  lepage spglib cell0 tol nn limit = Ok name.
Proof.
  intros C R D L T I M P LN NZ A U K CP Z.
  rewrite (run_exact spglib cell0 cell r tol nn limit (zero_pair gs) us C R L); auto.
  - rewrite (angles_exact cell ps gs us) by auto. rewrite (classify_IZR _ _ _ _ (length_le gs)); auto.
    + rewrite map_ax_U, Z. reflexivity.
    + rewrite map_ax_U. intros x y. apply (length_le_sound cell ps gs _ M P LN CP).
  - intros V h HV Hh E. assert (Q : twofold (metric cell) V h <-> zero_pair gs (V, h) = true).
    { rewrite M. apply (decided_sound ps gs nz); auto. }
    rewrite <- (delta_zero_iff cell r V h (reciprocal_dual _ _ R) E) in Q. destruct (zero_pair gs (V, h)).
    + apply Q. reflexivity.
    + destruct (I V h HV Hh E) as [Y|Y]; auto. apply Q in Y. discriminate.
Qed.
