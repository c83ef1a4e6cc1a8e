(* P_LepageKind.v : property C75, lepage gives every lattice the name of its kind *)
From Verif Require Import Base M_Strings M_Numerical M_Geometry F_Geometry M_Cell M_Niggli S_Niggli F_Niggli
  M_Voronoi F_Voronoi M_ScExamples M_Lepage F_Lepage F_LepageEx P_Lepage F_Bravais F_Angles F_Classify P_Bravais P_Orientation F_NiggliUnique P_Minima
  F_Axes F_AxesData F_AxesTable F_AxesReal F_AxesKinds.
Open Scope R_scope.
Notation metric := F_Bravais.metric.

(* ---------------- specification ---------------- *)
(* q is a rotation by 180 degrees that leaves the lattice of the cell as it is *)
Definition two_fold (cell q : mat) : Prop :=
  orthogonal q /\ det q = 1 /\ mmul q q = mid /\ q <> mid /\ same_lattice (mmul cell q) cell.

(* ---------------- rotations and integer matrices ---------------- *)
Definition trace (m : mat) : R := vx (row1 m) + vy (row2 m) + vz (row3 m).
Lemma trace_mul a b : trace (mmul a b) = trace (mmul b a).
Proof. destruct a as [[] [] []], b as [[] [] []]. unfold trace. vunfold. ring. Qed.
Lemma involution_trace q : orthogonal q -> det q = 1 -> mmul q q = mid -> q <> mid -> trace q = - (1).
Proof.
  intros O D Q N. assert (J : adj q = q).
  { assert (E : mmul (adj q) q = mid).
    { pose proof (minv_l q ltac:(lra)) as L. unfold minv_total in L. rewrite D in L.
      replace (mscale (/ 1) (adj q)) with (adj q) in L; [exact L|]. rewrite Rinv_1. generalize (adj q). intros [[] [] []]. vunfold. vcomp; ring. }
    rewrite <- (mmul_id_r (adj q)), <- Q, <- mmul_assoc, E. apply mmul_id_l. }
  destruct q as [[a1 a2 a3] [b1 b2 b3] [c1 c2 c3]]. unfold orthogonal, trace in *. vunfold.
  injection J. injection O. injection Q. intros. 
  set (t := a1 + b2 + c3). assert (T : (t - 3) * (t + 1) = 0).
  { transitivity ((a1 * a1 + a2 * b1 + a3 * c1 - 1) + (b1 * a2 + b2 * b2 + b3 * c2 - 1) + (c1 * a3 + c2 * b3 + c3 * c3 - 1)
      + 2 * ((b2 * c3 - b3 * c2 - a1) + (c3 * a1 - c1 * a3 - b2) + (a1 * b2 - a2 * b1 - c3))); [unfold t; ring|lra]. }
  apply Rmult_integral in T. destruct T as [T|T]; [|unfold t in *; lra]. exfalso. apply N.
  assert (S : (a1 - 1) * (a1 - 1) + a2 * a2 + a3 * a3 + b1 * b1 + (b2 - 1) * (b2 - 1) + b3 * b3 + c1 * c1 + c2 * c2 + (c3 - 1) * (c3 - 1) = 0) by (unfold t in *; lra).
  clear - S. assert (P : forall x, 0 <= x * x) by (intros; nra). assert (Z : forall x, x * x <= 0 -> x = 0) by (intros; nra).
  pose proof (P (a1 - 1)). pose proof (P a2). pose proof (P a3). pose proof (P b1). pose proof (P (b2 - 1)). pose proof (P b3). pose proof (P c1). pose proof (P c2). pose proof (P (c3 - 1)).
  pose proof (Z (a1 - 1) ltac:(lra)). pose proof (Z a2 ltac:(lra)). pose proof (Z a3 ltac:(lra)). pose proof (Z b1 ltac:(lra)). pose proof (Z (b2 - 1) ltac:(lra)).
  pose proof (Z b3 ltac:(lra)). pose proof (Z c1 ltac:(lra)). pose proof (Z c2 ltac:(lra)). pose proof (Z (c3 - 1) ltac:(lra)). vcomp; lra.
Qed.
Lemma ztrace_IZR w : IZR (ztrace w) = trace (ofZ w).
Proof. destruct w. unfold ztrace, trace, ofZ. vunfold. rewrite !plus_IZR. reflexivity. Qed.
Lemma ofZ_inj a b : ofZ a = ofZ b -> a = b.
Proof. destruct a, b. unfold ofZ. vunfold. intros E. injection E. intros. repeat match goal with H : IZR _ = IZR _ |- _ => apply eq_IZR in H; subst end. reflexivity. Qed.
Lemma two_fold_matrix d q : det d <> 0 -> two_fold d q ->
  exists w, mmul d q = mmul (ofZ w) d /\ is_two w = true /\ Sym d w.
Proof.
  intros D (O & Q1 & Q2 & N & S). destruct (same_lattice_change d (mmul d q) D (same_sym _ _ S)) as (w & U & E).
  exists w. assert (W : ofZ w = mmul (mmul d q) (minv_total d)) by (rewrite E, mmul_assoc, minv_r, mmul_id_r by auto; reflexivity).
  split; [exact E|]. split.
  - unfold is_two. apply andb_true_iff. split.
    + apply Z.eqb_eq. apply eq_IZR. rewrite ztrace_IZR, W, mmul_assoc, trace_mul, mmul_assoc, minv_l, mmul_id_r by auto.
      apply involution_trace; auto.
    + apply zeqb_true. change zone with zid. apply ofZ_inj. rewrite ofZ_mul, W, F_Niggli.ofZ_id.
      transitivity (mmul d (mmul (mmul q (mmul (minv_total d) d)) (mmul q (minv_total d)))); [rewrite !mmul_assoc; reflexivity|].
      rewrite minv_l, mmul_id_r by auto. rewrite <- (mmul_assoc q), Q2, mmul_id_l. apply minv_r, D.
  - unfold Sym, metric. transitivity (mmul (mmul (ofZ w) d) (tr (mmul (ofZ w) d))); [rewrite tr_mmul, !mmul_assoc; reflexivity|].
    rewrite <- E, tr_mmul, mmul_assoc, <- (mmul_assoc q), O, mmul_id_l. reflexivity.
Qed.
Lemma twos_det : all (fun w => Z.eqb (zdet w) 1) twos = true.
Proof. vm_compute. reflexivity. Qed.
Lemma matrix_two_fold d w : det d <> 0 -> In w twos -> Sym d w ->
  exists q, mmul d q = mmul (ofZ w) d /\ two_fold d q.
Proof.
  intros D I S. pose proof twos_det as TD. rewrite all_true in TD. apply TD in I as WD. apply Z.eqb_eq in WD. clear TD.
  apply twos_two in I. unfold is_two in I. apply andb_true_iff in I. destruct I as (T & Q). apply Z.eqb_eq in T. apply zeqb_true in Q.
  exists (mmul (minv_total d) (mmul (ofZ w) d)).
  assert (E : mmul d (mmul (minv_total d) (mmul (ofZ w) d)) = mmul (ofZ w) d) by (rewrite <- mmul_assoc, minv_r, mmul_id_l by auto; reflexivity).
  split; [exact E|]. unfold two_fold. rewrite E. split; [|split; [|split; [|split]]].
  - unfold orthogonal. rewrite !tr_mmul.
    transitivity (mmul (minv_total d) (mmul (mmul (mmul (ofZ w) (metric d)) (tr (ofZ w))) (tr (minv_total d)))); [unfold metric; rewrite !mmul_assoc; reflexivity|].
    rewrite S. unfold metric. rewrite mmul_assoc, <- mmul_assoc, minv_l, mmul_id_l by auto. rewrite <- tr_mmul, minv_l by auto. reflexivity.
  - pose proof (f_equal det (minv_l d D)) as M. rewrite det_mmul in M. rewrite !det_mmul, ofZ_det, WD.
    replace (det mid) with 1 in M by (vunfold; ring). lra.
  - transitivity (mmul (minv_total d) (mmul (mmul (ofZ w) (mmul d (minv_total d))) (mmul (ofZ w) d))); [rewrite !mmul_assoc; reflexivity|].
    rewrite minv_r, mmul_id_r by auto. rewrite <- (mmul_assoc (ofZ w)), <- ofZ_mul, Q. change zone with zid. rewrite F_Niggli.ofZ_id, mmul_id_l. apply minv_l, D.
  - intros H. rewrite H, mmul_id_r in E. apply (f_equal (fun x => mmul x (minv_total d))) in E. rewrite mmul_assoc, minv_r, mmul_id_r in E by auto.
    assert (X : ofZ w = ofZ zid) by (rewrite <- E; reflexivity). apply ofZ_inj in X. subst w. discriminate T.
  - apply unimodular_same_lattice. left. exact WD.
Qed.
Lemma same_two_fold c d q : same_lattice c d -> two_fold c q -> two_fold d q.
Proof.
  intros S (O & D & Q & N & L). split; [exact O|split; [exact D|split; [exact Q|split; [exact N|]]]].
  apply same_trans with (mmul c q); [apply turned_lattice, same_sym, S|]. apply same_trans with c; auto.
Qed.

(* ---------------- the entries ---------------- *)
Definition few_ok (e : entry) : bool :=
  match e_set e with
  | a :: b :: _ => negb (zeqb a b)
  | _ => Nat.leb (length (zdedup (map fst (filter (par (e_set e)) good)))) 1
  end.
Lemma entries_few : all few_ok entries = true.
Proof. vm_compute. reflexivity. Qed.
Lemma copy_params e m : copy_of e m -> cell_params e = cell_params m.
Proof.
  unfold cell_params, copy_of. destruct e as [[] [] []], m as [[] [] []]. vunfold. intros E. injection E. intros. f_equal; lra.
Qed.
Lemma zname_inv A gs s : zname A gs = Some s -> known_angles gs (us_of A) = true /\ comparable gs (ztet_xy (zangles gs (us_of A)) (us_of A)) = true /\
  zchecks (zangles gs (us_of A)) (us_of A) (length_le gs) = Ok (Some s).
Proof.
  unfold zname. generalize (us_of A). intros us. cbv zeta. destruct (known_angles gs us); [|discriminate].
  destruct (comparable gs _); [|discriminate]. destruct (zchecks _ _ _) as [[t|]|]; try discriminate. intros E. injection E as ->. auto.
Qed.
Section Entry.
  Variable d : mat.
  Variable e : entry.
  Hypothesis D : det d <> 0.
  Hypothesis N : niggli_reduced d.
  Hypothesis I : In e entries.
  Hypothesis S1 : forall w, In w (e_set e) -> Sym d w.
  Hypothesis S2 : forall w, is_two w = true -> Sym d w -> In w (e_set e).
  Lemma entry_facts : entry_ok e = true /\ few_ok e = true.
  Proof. pose proof entries_ok as A. pose proof entries_few as B. rewrite all_true in A, B. auto. Qed.
  Lemma entry_twos : forall w, In w (e_set e) -> In w twos.
  Proof.
    destruct entry_facts as (A & _). unfold entry_ok in A. cbv zeta in A. destruct (all _ (e_set e)) eqn:E; [|discriminate].
    rewrite all_true in E. intros w W. apply zmem_true, E, W.
  Qed.
  Lemma entry_isolated r limit : get_reciprocal d = Ok r -> clear_cut d limit -> isolated d r limit (par (e_set e)).
  Proof.
    intros R C U h HU Hh E. pose proof (delta_zero_iff d r U h (reciprocal_dual _ _ R) E) as Q. rewrite (twofold_sym d U h E) in Q.
    unfold par. destruct (zmem (wmat (U, h)) (e_set e)) eqn:M.
    - apply Q, S1, zmem_true, M.
    - destruct (clear_cut_delta d r limit R C U h HU Hh E) as [Z|Z]; auto. apply Q in Z. apply S2 in Z; [|apply wmat_two, E].
      apply zmem_true in Z. congruence.
  Qed.
  Lemma entry_unimodular : unimodular (e_X e).
  Proof.
    destruct entry_facts as (A & _). unfold entry_ok in A. cbv zeta in A. destruct (all _ (e_set e)); [|discriminate].
    destruct (unimodb (e_X e)) eqn:U; [|discriminate]. unfold unimodb in U. destruct (Z.eqb_spec (zdet (e_X e)) 1); [left; auto|right; apply Z.eqb_eq, U].
  Qed.
  (* at most one axis *)
  Lemma few_name spglib given tol nn limit : (length (e_set e) <= 1)%nat -> lepage_cell spglib given nn = Ok d -> 0 < limit -> clear_cut d limit ->
    In (lepage spglib given tol nn limit) [Ok "MCL"%string; Ok "MCLC"%string; Ok "TRI"%string].
  Proof.
    intros LE C L CC. destruct (recip_exists d D) as (r & R).
    set (us := zdedup (map fst (filter (par (e_set e)) good))).
    assert (LU : (length us <= 1)%nat).
    { destruct entry_facts as (_ & F). unfold few_ok in F. fold us in F. destruct (e_set e) as [|a [|b l]]; [apply Nat.leb_le, F|apply Nat.leb_le, F|cbn in LE; lia]. }
    rewrite (run_exact spglib given d r tol nn limit (par (e_set e)) us C R L (entry_isolated r limit R CC)).
    2:{ rewrite exact_us_good by apply entry_twos. reflexivity. }
    destruct us as [|u [|v us]]; [right; right; left; reflexivity| |cbn in LU; lia].
    cbn [map]. unfold classify.
    replace (check_cub (angles_of [exact_axis d u]) [exact_axis d u] (Rabs tol)) with (@Ok (option string) None) by reflexivity.
    replace (check_hex (angles_of [exact_axis d u]) (Rabs tol)) with (@Ok (option string) None) by reflexivity.
    replace (check_tet (angles_of [exact_axis d u]) [exact_axis d u] (Rabs tol) d) with (@Ok (option string) None) by reflexivity.
    replace (check_rhl (angles_of [exact_axis d u]) (Rabs tol)) with (@Ok (option string) None) by reflexivity.
    replace (check_orc (angles_of [exact_axis d u]) [exact_axis d u] (Rabs tol)) with (@Ok (option string) None) by reflexivity.
    cbn [or_else]. unfold check_mcl. destruct (get_perpendicular_shortest _ _ _) as [[a c]|x]; [|right; right; left; reflexivity].
    cbv zeta. destruct (_ =? 1)%Z; [left; reflexivity|]. destruct (_ =? 2)%Z; [right; left; reflexivity|right; right; left; reflexivity].
  Qed.
  Lemma hex_none : (2 <= length (e_set e))%nat -> nth_error kinds (e_code e) <> None.
  Proof.
    intros LE K. destruct entry_facts as (A & _). pose proof entry_unimodular as U. unfold entry_ok in A. cbv zeta in A. destruct (all _ (e_set e)); [|discriminate].
    destruct (unimodb (e_X e)); [|discriminate]. rewrite K in A. destruct (Nat.leb_spec (length (e_set e)) 1) as [X|_]; [lia|].
    unfold hexagonal in A. destruct (zmem (conjugate _ _) (e_set e)) eqn:M; [discriminate|]. cbv zeta in A. set (X := e_X e) in *.
    assert (G : forall w, zmem w (map (fun w => zmul (zmul X w) (Yof X)) (e_set e)) = true -> Sym (mmul (ofZ X) d) w).
    { intros w W. apply zmem_true in W. apply in_map_iff in W. destruct W as (v & <- & V). apply Sym_change; auto.
      assert (As : forall a b c, zmul (zmul a b) c = zmul a (zmul b c)) by (intros [] [] []; vunfold; f_equal; ring).
      assert (Id : forall a, zmul Base.zid a = a) by (intros []; vunfold; f_equal; ring).
      assert (Id' : forall a, zmul a Base.zid = a) by (intros []; vunfold; f_equal; ring).
      assert (E : zmul (zmul (Yof X) (zmul (zmul X v) (Yof X))) X = v).
      { rewrite !As, Yof_l by auto. rewrite Id', <- As, Yof_l by auto. apply Id. }
      rewrite E. apply S1, V. }
    assert (H : Sym (mmul (ofZ X) d) (Zm (-1) 0 0 0 (-1) 0 0 0 1)).
    { destruct (zmem _ (map _ _)) eqn:M1 in A.
      - pose proof (G _ M1) as G1. pose proof (G _ A) as G2. clear - G1 G2. unfold Sym in *. destruct (metric_form (mmul (ofZ X) d)) as (a & b & c & x & y & z & M).
        rewrite M in *. unfold ofZ in *. vunfold. injection G1. injection G2. intros. vcomp; lra.
      - destruct (zmem _ (map _ _)) eqn:M2 in A; [|discriminate].
        pose proof (G _ M2) as G1. pose proof (G _ A) as G2. clear - G1 G2. unfold Sym in *. destruct (metric_form (mmul (ofZ X) d)) as (a & b & c & x & y & z & M).
        rewrite M in *. unfold ofZ in *. vunfold. injection G1. injection G2. intros. vcomp; lra. }
    apply Sym_change in H; auto. apply S2 in H; [|apply is_two_conj; auto]. apply zmem_true in H. unfold conjugate in M. congruence.
  Qed.
  Lemma kind_name : (2 <= length (e_set e))%nat -> exists k ps, nth_error kinds (e_code e) = Some k /\
    metric (mmul (ofZ (e_X e)) d) = lin ps (f_gs (k_fam k)) /\ length ps = length (f_gs (k_fam k)) /\
    exists m o, standard (f_name (k_fam k)) m /\ orthogonal o /\ same_lattice (mmul m o) d /\
    forall spglib given tol nn limit, lepage_cell spglib given nn = Ok d -> 0 < limit -> clear_cut d limit -> 0 < Rabs tol <= 1 ->
      lepage spglib given tol nn limit = Ok (f_name (k_fam k)).
  Proof.
    intros LE. pose proof (hex_none LE) as HN. destruct entry_facts as (A & _). pose proof entry_unimodular as U. pose proof entry_twos as ET.
    unfold entry_ok in A. cbv zeta in A. destruct (all _ (e_set e)); [|discriminate]. destruct (unimodb (e_X e)); [|discriminate].
    destruct (nth_error kinds (e_code e)) as [k|] eqn:K; [|congruence]. clear HN. pose proof K as K'. apply nth_error_In in K. set (X := e_X e) in *.
    destruct (all _ (k_gens k)) eqn:G; [|discriminate]. destruct (all _ (k_extra k)) eqn:XT; [|discriminate]. pose proof (proj1 (all_true _ _) G) as G_. pose proof (proj1 (all_true _ _) XT) as XT_. clear G XT. rename G_ into G. rename XT_ into XT.
    set (c := mmul (ofZ X) d). assert (Dc : det c <> 0).
    { unfold c. rewrite det_mmul, ofZ_det. intros Z. apply Rmult_integral in Z. destruct Z as [Z|Z]; [|auto]. apply eq_IZR in Z. destruct U as [U|U]; rewrite U in Z; discriminate. }
    assert (GS : Forall (Sym c) (k_gens k)).
    { apply Forall_forall. intros g Hg. apply Sym_change; auto. apply S1, zmem_true, G, Hg. }
    destruct (kind_metric k c K Dc GS) as (ps & M & P & LP).
    assert (NZ : Forall (fun n => comb ps n <> 0) (f_nz (k_fam k))).
    { apply Forall_forall. intros n Hn Z. pose proof kinds_covered as CV. rewrite forallb_forall in CV. specialize (CV k K). unfold covered in CV.
      rewrite forallb_forall in CV. specialize (CV n Hn). apply existsb_exists in CV. destruct CV as ([n' w] & Hw & E). cbn [fst] in E.
      destruct (list_eq_dec Z.eq_dec n n') as [<-|]; [|discriminate]. pose proof (kind_extra k c ps n w K M LP Hw Z) as SW.
      specialize (XT _ Hw). cbn [snd] in XT. destruct (is_two w) eqn:T; [|discriminate]. apply negb_true_iff in XT.
      apply Sym_change in SW; auto. apply S2 in SW; [|apply is_two_conj; auto]. apply zmem_true in SW. unfold conjugate in XT. congruence. }
    destruct (kind_shape k c ps K M P LP NZ) as (m & ST & CO).
    pose proof (copy_params _ _ CO) as CP.
    assert (Dm : det m <> 0).
    { intros Z. apply (f_equal det) in CO. rewrite !det_mmul, !det_tr, Z in CO. rewrite Rmult_0_l in CO. apply Rmult_integral in CO. tauto. }
    destruct (params_isometry m c Dm (eq_sym CP)) as (o & O & EC).
    exists k, ps. split; [reflexivity|]. split; [exact M|]. split; [exact LP|]. exists m, o. split; [exact ST|]. split; [exact O|]. split.
    { rewrite <- EC. apply unimodular_same_lattice, U. }
    intros spglib given tol nn limit C L CC T. destruct (recip_exists d D) as (r & R).
    set (gs := conj_gs (Yof X) (f_gs (k_fam k))) in *.
    assert (Md : metric d = lin ps gs) by (rewrite (metric_back X d U); fold c; rewrite M; apply lin_conj).
    assert (Lg : length ps = length gs) by (unfold gs, conj_gs; rewrite map_length; exact LP).
    destruct (zname (e_set e) gs) as [s|] eqn:ZN; [|discriminate].
    assert (s = f_name (k_fam k)) as ->.
    { destruct (String.eqb_spec s (f_name (k_fam k))) as [|_]; auto. exfalso. destruct (Nat.eqb_spec (e_code e) 10) as [E10|]; [|discriminate].
      apply gmem_true in A. rewrite E10 in K'. injection K' as <-. apply (seven_not_reduced gs d ps A N Md P Lg NZ). }
    apply zname_inv in ZN. destruct ZN as (KA & CM & ZC).
    assert (EU : zdedup (exact_us (par (e_set e))) = us_of (e_set e)) by (unfold us_of; rewrite exact_us_good by apply ET; reflexivity).
    revert EU KA CM ZC. generalize (us_of (e_set e)). intros us EU KA CM ZC.
    rewrite (run_exact spglib given d r tol nn limit (par (e_set e)) us C R L (entry_isolated r limit R CC) EU).
    rewrite (angles_exact d ps gs us) by auto. rewrite (classify_IZR _ _ _ _ (length_le gs)); auto.
    - rewrite map_ax_U, ZC. reflexivity.
    - rewrite map_ax_U. intros x y. apply (length_le_sound d ps gs _ Md P Lg CM).
  Qed.
End Entry.

(* ---------------- what is proved ---------------- *)
(* In all theorems below, d is the cell that lepage examines: the result of the Niggli reduction by spglib, or
   the given cell itself if no_niggli is True.  d has to be a Niggli cell of the given lattice.  clear_cut d limit
   (specification of C60) says that no pair of lattice vectors misses being a symmetry axis by less than the limit. *)
Lemma two_fold_cases d : det d <> 0 -> niggli_reduced d ->
  exists e, In e entries /\ (forall w, In w (e_set e) -> Sym d w) /\ (forall w, is_two w = true -> Sym d w -> In w (e_set e)) /\
  (((2 <= length (e_set e))%nat /\ exists q1 q2, two_fold d q1 /\ two_fold d q2 /\ q1 <> q2) \/
   ((length (e_set e) <= 1)%nat /\ forall q1 q2, two_fold d q1 -> two_fold d q2 -> q1 = q2)).
Proof.
  intros D N. destruct (reduced_entry d D N) as (e & I & S1 & S2). exists e. do 3 (split; [assumption|]).
  assert (ET : forall w, In w (e_set e) -> In w twos) by (apply entry_twos; auto).
  pose proof entries_few as EF. rewrite all_true in EF. specialize (EF e I). unfold few_ok in EF.
  assert (CI : forall w q1 q2, mmul d q1 = mmul (ofZ w) d -> mmul d q2 = mmul (ofZ w) d -> q1 = q2).
  { intros w q1 q2 E1 E2. rewrite <- (mmul_id_l q1), <- (mmul_id_l q2), <- (minv_l d D), !mmul_assoc, E1, E2. reflexivity. }
  destruct (e_set e) as [|w1 [|w2 l]] eqn:ES.
  - right. split; [cbn; lia|]. intros q1 q2 Q1 _. destruct (two_fold_matrix d q1 D Q1) as (w & _ & W & S). destruct (S2 w W S).
  - right. split; [cbn; lia|]. intros q1 q2 Q1 Q2. destruct (two_fold_matrix d q1 D Q1) as (v1 & E1 & W1 & V1).
    destruct (two_fold_matrix d q2 D Q2) as (v2 & E2 & W2 & V2). apply (CI w1); [destruct (S2 v1 W1 V1) as [<-|[]]|destruct (S2 v2 W2 V2) as [<-|[]]]; auto.
  - left. split; [cbn; lia|]. destruct (matrix_two_fold d w1 D (ET w1 ltac:(left; auto)) (S1 w1 ltac:(left; auto))) as (q1 & E1 & Q1).
    destruct (matrix_two_fold d w2 D (ET w2 ltac:(right; left; auto)) (S1 w2 ltac:(right; left; auto))) as (q2 & E2 & Q2).
    exists q1, q2. do 2 (split; [assumption|]). intros <-. rewrite E1 in E2.
    assert (ofZ w1 = ofZ w2). { rewrite <- (mmul_id_r (ofZ w1)), <- (mmul_id_r (ofZ w2)), <- (minv_r d D), <- !mmul_assoc, E2. reflexivity. }
    apply ofZ_inj in H. subst w2. replace (zeqb w1 w1) with true in EF by (symmetry; apply zeqb_true; auto). cbn in EF. discriminate EF.
Qed.

Lemma same_det c d : det c <> 0 -> same_lattice d c -> det d <> 0.
Proof.
  intros D S. destruct (same_lattice_change c d D (same_sym _ _ S)) as (w & U & ->). rewrite det_mmul, ofZ_det. intros Z.
  apply Rmult_integral in Z. destruct Z as [Z|Z]; [|auto]. apply eq_IZR in Z. destruct U as [U|U]; rewrite U in Z; discriminate.
Qed.

(* If at least two different rotations by 180 degrees leave the lattice as it is, the answer is one of the eleven
   names other than MCL, MCLC, TRI, and the lattice is that of a documented primitive cell with this name. *)
Theorem C75_many : forall spglib given d angle_tolerance no_niggli limit,
  det given <> 0 -> lepage_cell spglib given no_niggli = Ok d -> same_lattice d given -> niggli_reduced d ->
  0 < limit -> clear_cut d limit -> 0 < Rabs angle_tolerance <= 1 ->
  (exists q1 q2, two_fold given q1 /\ two_fold given q2 /\ q1 <> q2) ->
  exists name m o, lepage spglib given angle_tolerance no_niggli limit = Ok name /\
    standard name m /\ orthogonal o /\ same_lattice (mmul m o) given.
Proof.
  intros sp g d tol nn lim Dg C SD N L CC T (q1 & q2 & Q1 & Q2 & NQ). assert (D : det d <> 0) by (apply (same_det g); auto).
  destruct (two_fold_cases d D N) as (e & I & S1 & S2 & [(LE & _)|(_ & U)]).
  - destruct (kind_name d e D N I S1 S2 LE) as (k & _ & _ & _ & _ & m & o & ST & O & SL & A). exists (f_name (k_fam k)), m, o.
    split; [apply A; auto|]. do 2 (split; [assumption|]). apply same_trans with d; auto.
  - exfalso. apply NQ, U; apply (same_two_fold g); auto; apply same_sym, SD.
Qed.
Print Assumptions C75_many.

(* If there is at most one such rotation, the answer is MCL, MCLC or TRI. *)
Theorem C75_few : forall spglib given d angle_tolerance no_niggli limit,
  det given <> 0 -> lepage_cell spglib given no_niggli = Ok d -> same_lattice d given -> niggli_reduced d ->
  0 < limit -> clear_cut d limit -> 
  (forall q1 q2, two_fold given q1 -> two_fold given q2 -> q1 = q2) ->
  In (lepage spglib given angle_tolerance no_niggli limit) [Ok "MCL"%string; Ok "MCLC"%string; Ok "TRI"%string].
Proof.
  intros sp g d tol nn lim Dg C SD N L CC U. assert (D : det d <> 0) by (apply (same_det g); auto).
  destruct (two_fold_cases d D N) as (e & I & S1 & S2 & [(_ & q1 & q2 & Q1 & Q2 & NQ)|(LE & _)]).
  - exfalso. apply NQ, U; apply (same_two_fold d); auto.
  - apply (few_name d e); auto.
Qed.
Print Assumptions C75_few.

Lemma standard_names name m : standard name m -> ~ In name ["MCL"; "MCLC"; "TRI"]%string.
Proof. intros []; cbn; intuition discriminate. Qed.

(* lepage always answers, and if the answer is not MCL, MCLC or TRI, it is right. *)
Theorem C75_never_wrong : forall spglib given d angle_tolerance no_niggli limit,
  det given <> 0 -> lepage_cell spglib given no_niggli = Ok d -> same_lattice d given -> niggli_reduced d ->
  0 < limit -> clear_cut d limit -> 0 < Rabs angle_tolerance <= 1 ->
  exists name, lepage spglib given angle_tolerance no_niggli limit = Ok name /\
    (In name ["MCL"; "MCLC"; "TRI"]%string \/
     exists m o, standard name m /\ orthogonal o /\ same_lattice (mmul m o) given).
Proof.
  intros sp g d tol nn lim Dg C SD N L CC T. assert (D : det d <> 0) by (apply (same_det g); auto).
  destruct (two_fold_cases d D N) as (e & I & S1 & S2 & [(_ & q1 & q2 & Q1 & Q2 & NQ)|(LE & _)]).
  - destruct (C75_many sp g d tol nn lim Dg C SD N L CC T) as (name & m & o & A & B).
    { exists q1, q2. split; [|split]; auto; apply (same_two_fold d); auto. }
    exists name. split; auto. right. exists m, o. exact B.
  - destruct (few_name d e D I S1 S2 sp g tol nn lim LE C L CC) as [A|[A|[A|[]]]]; (eexists; split; [symmetry; exact A|]); left; cbn; auto.
Qed.
Print Assumptions C75_never_wrong.

(* Without the Niggli reduction the names are not reliable: a body-centred orthorhombic lattice whose documented
   primitive cell has its first vector reversed is called base-centred.  The same holds for all lengths a, b, c. *)
Definition fam_reversed := Family [sym6 1 1 1 1 1 1; sym6 1 1 1 (-1) (-1) 1; sym6 1 1 1 (-1) 1 (-1)] [[1; -1; 0]%Z; [1; 0; -1]%Z; [0; 1; -1]%Z] [Zv 0 1 1; Zv 1 (-1) 0; Zv 1 0 (-1)] "ORCC".
Lemma fam_reversed_ok : family_ok fam_reversed = true.
Proof. vm_compute. reflexivity. Qed.
Definition reversed (m : mat) : mat := M3 (vscale (- (1)) (row1 m)) (row2 m) (row3 m).
Theorem C75_reversed_vector : forall a b c given angle_tolerance limit,
  0 < a -> 0 < b -> 0 < c -> a <> b -> a <> c -> b <> c ->
  given = reversed (SC_ORCI a b c) -> 0 < limit -> clear_cut given limit -> 0 < Rabs angle_tolerance <= 1 ->
  standard "ORCI" (SC_ORCI a b c) /\ same_lattice (SC_ORCI a b c) given /\
  lepage None given angle_tolerance true limit = Ok "ORCC"%string.
Proof.
  intros a b c g tol lim A B C N1 N2 N3 -> L CC T. split; [constructor; auto|]. split.
  - apply same_sym. replace (reversed (SC_ORCI a b c)) with (mmul (ofZ (Zm (-1) 0 0 0 1 0 0 0 1)) (SC_ORCI a b c)) by (unfold ofZ, reversed, SC_ORCI; vunfold; vcomp; field).
    apply unimodular_same_lattice. right. reflexivity.
  - assert (Q : forall a, 0 < a -> 0 < a * a / 4) by (intros; nra).
    change "ORCC"%string with (f_name fam_reversed).
    apply (family_run fam_reversed [a * a / 4; b * b / 4; c * c / 4] None _ (reversed (SC_ORCI a b c))); auto using fam_reversed_ok.
    + rewrite metric_det. unfold reversed, SC_ORCI. vunfold. assert (0 < a * b * c) by (repeat apply Rmult_lt_0_compat; auto).
      intros Z. apply Rmult_integral in Z. destruct Z as [Z|Z]; lra.
    + cbn [lin f_gs fam_reversed]. unfold madd, mzero, metric, reversed, SC_ORCI, ofZ, sym6. vunfold. vcomp; field.
    + pose proof (sq_neq a b A B N1). pose proof (sq_neq a c A C N2). pose proof (sq_neq b c B C N3). repeat (apply Forall_cons || apply Forall_nil); cbn [comb]; lra.
Qed.
Print Assumptions C75_reversed_vector.

(* The lattice type depends on the choice of the cell if the reduction is skipped: two cells of the same
   lattice, two different answers. *)
Theorem C75_unreduced_refuted : exists m cell,
  standard "ORCI" m /\ same_lattice m cell /\ clear_cut cell 2 /\ clear_cut m 2 /\
  lepage None m (1 / 10000) true 2 = Ok "ORCI"%string /\ lepage None cell (1 / 10000) true 2 = Ok "ORCC"%string.
Proof.
  exists (SC_ORCI 2 4 6), (reversed (SC_ORCI 2 4 6)).
  assert (CC : clear_cut (reversed (SC_ORCI 2 4 6)) 2).
  { replace (reversed (SC_ORCI 2 4 6)) with (ofZ (Zm 1 (-2) (-3) 1 (-2) 3 1 2 (-3))) by (unfold ofZ, reversed, SC_ORCI; vunfold; vcomp; field).
    apply separated_clear_cut; [unfold ofZ; vunfold; lra|vm_compute; reflexivity]. }
  assert (E : SC_ORCI 2 4 6 = ofZ (Zm (-1) 2 3 1 (-2) 3 1 2 (-3))) by (unfold ofZ, SC_ORCI; vunfold; vcomp; field).
  assert (CM : clear_cut (SC_ORCI 2 4 6) 2).
  { rewrite E. apply separated_clear_cut; [unfold ofZ; vunfold; lra|vm_compute; reflexivity]. }
  destruct (C75_reversed_vector 2 4 6 (reversed (SC_ORCI 2 4 6)) (1 / 10000) 2) as (S & SL & A); auto; try lra.
  { rewrite Rabs_right; lra. }
  repeat (split; [assumption|]). split; [|exact A]. rewrite E. apply identifies_orci.
Qed.
Print Assumptions C75_unreduced_refuted.

(* A concrete case of C75_many that C74 does not cover: the body-centred cell above, given with its first vector
   reversed.  Its Niggli cell is not the documented primitive cell. *)
Example C75_case : exists given d, det given <> 0 /\ lepage_cell (Some (fun _ _ => Ok d)) given false = Ok d /\
  same_lattice d given /\ niggli_reduced d /\ d <> given /\ clear_cut d 2 /\
  exists q1 q2, two_fold given q1 /\ two_fold given q2 /\ q1 <> q2.
Proof.
  exists (ofZ (Zm 1 (-2) (-3) 1 (-2) 3 1 2 (-3))), (ofZ (Zm 2 0 0 1 2 3 1 (-2) 3)).
  assert (S : same_lattice (ofZ (Zm 2 0 0 1 2 3 1 (-2) 3)) (ofZ (Zm 1 (-2) (-3) 1 (-2) 3 1 2 (-3)))).
  { replace (ofZ (Zm 2 0 0 1 2 3 1 (-2) 3)) with (mmul (ofZ (Zm 0 1 1 (-1) 1 1 0 1 0)) (ofZ (Zm 1 (-2) (-3) 1 (-2) 3 1 2 (-3)))) by (unfold ofZ; vunfold; vcomp; ring). 
    apply unimodular_same_lattice. right. reflexivity. }
  split; [unfold ofZ; vunfold; lra|]. split; [reflexivity|]. split; [exact S|]. split.
  { unfold niggli_reduced, cell_params, ofZ. vunfold. split; unfold near; cbn [nA nB nC nxi neta nzeta];
      try (left; lra); try lra; try (intros; unfold Rabs in *; repeat destruct Rcase_abs; lra). }
  split; [unfold ofZ; vunfold; intros E; injection E; intros; lra|].
  split; [apply separated_clear_cut; [unfold ofZ; vunfold; lra|vm_compute; reflexivity]|].
  exists (mk 1 0 0 0 (-1) 0 0 0 (-1)), (mk (-1) 0 0 0 1 0 0 0 (-1)).
  assert (T : forall q w, orthogonal q -> det q = 1 -> mmul q q = mid -> q <> mid -> unimodular w -> mmul (ofZ (Zm 1 (-2) (-3) 1 (-2) 3 1 2 (-3))) q = mmul (ofZ w) (ofZ (Zm 1 (-2) (-3) 1 (-2) 3 1 2 (-3))) ->
    two_fold (ofZ (Zm 1 (-2) (-3) 1 (-2) 3 1 2 (-3))) q).
  { intros q w O D Q N U E. repeat (split; [assumption|]). rewrite E. apply unimodular_same_lattice, U. }
  split; [|split].
  - apply (T _ (Zm (-1) 1 1 0 0 1 0 1 0)); [unfold orthogonal| | | |left; reflexivity|unfold ofZ]; vunfold; try (vcomp; ring); try ring. intros E. injection E. intros. lra.
  - apply (T _ (Zm 0 0 (-1) 1 (-1) (-1) (-1) 0 0)); [unfold orthogonal| | | |left; reflexivity|unfold ofZ]; vunfold; try (vcomp; ring); try ring. intros E. injection E. intros. lra.
  - vunfold. intros E. injection E. intros. lra.
Qed.
