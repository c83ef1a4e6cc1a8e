(* P_LepageExact.v : property C75, each lattice has one name and lepage gives it *)
From Verif Require Import Base M_Strings M_Numerical M_Geometry F_Geometry M_Cell M_Niggli S_Niggli F_Niggli
  M_Voronoi F_Voronoi M_ScExamples M_Lepage F_Lepage F_LepageEx P_Lepage F_Bravais F_Angles F_Classify P_Bravais P_Orientation F_NiggliUnique P_Minima
  F_Axes F_AxesData F_AxesTable F_AxesReal F_AxesKinds F_AxesExcl P_LepageKind.
Open Scope R_scope.
Notation metric := F_Bravais.metric.

Definition two_gens (k : kind) : bool := match k_gens k with a :: b :: _ => negb (zeqb a b) | _ => false end.
Lemma kinds_two : all two_gens kinds = true.
Proof. vm_compute. reflexivity. Qed.
Lemma kinds_families : map k_fam kinds = families.
Proof. reflexivity. Qed.
Lemma metric_turned m o : orthogonal o -> metric (mmul m o) = metric m.
Proof. intros O. unfold metric. rewrite tr_mmul, mmul_assoc, <- (mmul_assoc o), O, mmul_id_l. reflexivity. Qed.
Lemma orthogonal_det o : orthogonal o -> det o <> 0.
Proof. intros O Z. apply (f_equal det) in O. rewrite det_mmul, Z in O. replace (det mid) with 1 in O by (vunfold; ring). lra. Qed.

Section One.
  Variables (d m o : mat) (name : string).
  Hypothesis ST : standard name m.
  Hypothesis O : orthogonal o.
  Hypothesis SL : same_lattice (mmul m o) d.
  Hypothesis N : niggli_reduced d.
  Lemma lattice_det : det d <> 0.
  Proof.
    destruct (standard_family name m ST) as (f & ps & _ & _ & D & _). apply (same_det (mmul m o)).
    - rewrite det_mmul. apply Rmult_integral_contrapositive. split; [exact D|apply orthogonal_det, O].
    - apply same_sym, SL.
  Qed.
  Lemma one_kind e : In e entries -> (forall w, In w (e_set e) -> Sym d w) -> (forall w, is_two w = true -> Sym d w -> In w (e_set e)) ->
    exists kc, nth_error kinds (e_code e) = Some kc /\ f_name (k_fam kc) = name /\
    forall spglib given tol nn limit, lepage_cell spglib given nn = Ok d -> 0 < limit -> clear_cut d limit -> 0 < Rabs tol <= 1 ->
      lepage spglib given tol nn limit = Ok name.
  Proof.
    intros I S1 S2. pose proof lattice_det as D. destruct (standard_family name m ST) as (f & ps & If & EN & Dm & Mm & P & LP & NZ).
    assert (K : exists kf, In kf kinds /\ k_fam kf = f).
    { rewrite <- kinds_families in If. apply in_map_iff in If. destruct If as (kf & E & I0). eauto. }
    destruct K as (kf & Ik & Ek). subst f.
    assert (Dmo : det (mmul m o) <> 0) by (rewrite det_mmul; apply Rmult_integral_contrapositive; split; [exact Dm|apply orthogonal_det, O]).
    destruct (same_lattice_change (mmul m o) d Dmo SL) as (W & UW & EW).
    assert (Md : metric d = mmul (mmul (ofZ W) (metric m)) (tr (ofZ W))) by (rewrite EW, metric_change, metric_turned by auto; reflexivity).
    assert (LE : (2 <= length (e_set e))%nat).
    { assert (H : forall g, In g (k_gens kf) -> In (conjz W g) (e_set e)).
      { intros g Hg. pose proof (proj1 (all_true _ _) kinds_relations kf Ik) as R. unfold relations_ok in R.
        destruct (all_words_good (k_gens kf)); [|discriminate]. destruct (all _ (relations kf)); [|discriminate]. apply andb_true_iff in R. destruct R as (R1 & R2).
        pose proof (proj1 (all_true _ _) R1 g Hg) as G1. pose proof (proj1 (all_true _ _) R2 g Hg) as G2. cbv beta in G1. apply (lin_sym ps) in G1.
        apply S2.
        - pose proof (is_two_conj (Yof W) g (Yof_unimodular W UW) G2) as T2. rewrite (Yof_inv W UW) in T2. exact T2.
        - unfold conjz. pose proof (Sym_change (Yof W) d g (Yof_unimodular W UW)) as SC. rewrite (Yof_inv W UW) in SC. apply SC.
          unfold Sym. rewrite EW, <- mmul_assoc, <- ofZ_mul, Yof_l, ofZ_id, mmul_id_l by auto. rewrite metric_turned by auto. unfold metric. rewrite Mm. exact G1. }
      pose proof (proj1 (all_true _ _) kinds_two kf Ik) as K2. unfold two_gens in K2. destruct (k_gens kf) as [|a [|b l]]; [discriminate..|].
      pose proof (H a ltac:(left; auto)) as Ha. pose proof (H b ltac:(right; left; auto)) as Hb. destruct (e_set e) as [|x [|y s]]; [destruct Ha| |cbn; lia].
      destruct Ha as [Ha|[]]. destruct Hb as [Hb|[]]. exfalso. assert (E : a = b).
      { assert (Q : conjz W a = conjz W b) by congruence. apply (f_equal (fun t => zmul (zmul (Yof W) t) W)) in Q. unfold conjz in Q.
        rewrite !zmul_assoc, Yof_l, !zmul_1_r in Q by auto. rewrite <- !zmul_assoc, Yof_l, !zmul_1_l in Q by auto. exact Q. }
      subst b. rewrite (proj2 (zeqb_true a a) eq_refl) in K2. discriminate. }
    destruct (kind_name d e D N I S1 S2 LE) as (kc & ps' & Ec & Mc & LP' & m' & o' & _ & _ & _ & A).
    exists kc. split; [exact Ec|]. assert (EQ : f_name (k_fam kc) = name); [|split; [exact EQ|rewrite <- EQ; exact A]]. rewrite <- EN. symmetry.
    assert (UX : unimodular (e_X e)) by (apply (entry_unimodular e I)).
    apply (exclusive kf kc m (mmul (ofZ (e_X e)) d) (zmul (e_X e) W) ps ps'); auto.
    - apply (nth_error_In _ _ Ec).
    - unfold unimodular in *. rewrite zdet_mul. destruct UX as [-> | ->], UW as [-> | ->]; auto.
    - rewrite metric_change, Md, ofZ_mul, tr_mmul, !mmul_assoc. reflexivity.
    - intros w T2 Sw. apply Sym_change in Sw; auto. apply S2 in Sw; [|apply is_two_conj; auto].
      pose proof (proj1 (all_true _ _) entries_full e I) as F. unfold entry_full in F. rewrite Ec in F. cbv zeta in F.
      pose proof (proj1 (all_true _ _) F _ Sw) as M. cbv beta in M. apply zmem_true in M. unfold conjz in M.
      rewrite !zmul_assoc, Yof_r, zmul_1_r in M by auto. rewrite <- zmul_assoc, Yof_r, zmul_1_l in M by auto. exact M.
  Qed.
End One.

(* Whatever cell of the lattice is given, and whatever the shape of the documented primitive cell m. *)
Theorem C75_identifies : forall spglib given d name m o angle_tolerance no_niggli limit,
  standard name m -> orthogonal o -> same_lattice (mmul m o) given ->
  lepage_cell spglib given no_niggli = Ok d -> same_lattice d given -> niggli_reduced d ->
  0 < limit -> clear_cut d limit -> 0 < Rabs angle_tolerance <= 1 ->
  lepage spglib given angle_tolerance no_niggli limit = Ok name.
Proof.
  intros sp g d name m o tol nn lim ST O SL C SD N L CC T. assert (SL' : same_lattice (mmul m o) d) by (apply same_trans with g; auto; apply same_sym, SD).
  destruct (reduced_entry d (lattice_det d m o name ST O SL') N) as (e & I & S1 & S2). destruct (one_kind d m o name ST O SL' N e I S1 S2) as (k & _ & _ & A).
  apply A; auto.
Qed.
Print Assumptions C75_identifies.

(* The answer is one of the eleven names exactly if the lattice is, up to a rotation, that of a documented
   primitive cell with this name. *)
Theorem C75_exact : forall spglib given d name angle_tolerance no_niggli limit,
  det given <> 0 -> lepage_cell spglib given no_niggli = Ok d -> same_lattice d given -> niggli_reduced d ->
  0 < limit -> clear_cut d limit -> 0 < Rabs angle_tolerance <= 1 -> ~ In name ["MCL"; "MCLC"; "TRI"]%string ->
  (lepage spglib given angle_tolerance no_niggli limit = Ok name <->
   exists m o, standard name m /\ orthogonal o /\ same_lattice (mmul m o) given).
Proof.
  intros sp g d name tol nn lim D C SD N L CC T NM. split.
  - intros A. destruct (C75_never_wrong sp g d tol nn lim D C SD N L CC T) as (name' & A' & [I|E]); rewrite A in A'; injection A' as <-; [contradiction|exact E].
  - intros (m & o & ST & O & SL). apply (C75_identifies sp g d name m o); auto.
Qed.
Print Assumptions C75_exact.

(* The eleven names exclude each other: the lattices of two documented primitive cells with different names are
   different, in every orientation (if there is a Niggli cell of the lattice). *)
Theorem C75_exclusive : forall name1 name2 m1 m2 o1 o2 d,
  standard name1 m1 -> standard name2 m2 -> orthogonal o1 -> orthogonal o2 ->
  same_lattice (mmul m1 o1) d -> same_lattice (mmul m2 o2) d -> niggli_reduced d -> name1 = name2.
Proof.
  intros n1 n2 m1 m2 o1 o2 d T1 T2 O1 O2 L1 L2 N.
  destruct (reduced_entry d (lattice_det d m1 o1 n1 T1 O1 L1) N) as (e & I & S1 & S2).
  destruct (one_kind d m1 o1 n1 T1 O1 L1 N e I S1 S2) as (k1 & E1 & <- & _).
  destruct (one_kind d m2 o2 n2 T2 O2 L2 N e I S1 S2) as (k2 & E2 & <- & _). congruence.
Qed.
Print Assumptions C75_exclusive.

(* The body-centred cell whose first vector is reversed (P_LepageKind): with the reduction it gets the right name. *)
Example C75_identifies_case : exists f,
  lepage (Some f) (reversed (SC_ORCI 2 4 6)) (1 / 10000) false 2 = Ok "ORCI"%string /\
  lepage (Some f) (reversed (SC_ORCI 2 4 6)) (1 / 10000) true 2 = Ok "ORCC"%string.
Proof.
  exists (fun _ _ => Ok (ofZ (Zm 2 0 0 1 2 3 1 (-2) 3))).
  assert (S : same_lattice (SC_ORCI 2 4 6) (reversed (SC_ORCI 2 4 6))).
  { apply same_sym. replace (reversed (SC_ORCI 2 4 6)) with (mmul (ofZ (Zm (-1) 0 0 0 1 0 0 0 1)) (SC_ORCI 2 4 6)) by (unfold ofZ, reversed, SC_ORCI; vunfold; vcomp; field).
    apply unimodular_same_lattice. right. reflexivity. }
  assert (S' : same_lattice (ofZ (Zm 2 0 0 1 2 3 1 (-2) 3)) (reversed (SC_ORCI 2 4 6))).
  { replace (ofZ (Zm 2 0 0 1 2 3 1 (-2) 3)) with (mmul (ofZ (Zm 0 1 1 (-1) 1 1 0 1 0)) (reversed (SC_ORCI 2 4 6))) by (unfold ofZ, reversed, SC_ORCI; vunfold; vcomp; field).
    apply unimodular_same_lattice. right. reflexivity. }
  assert (A : 0 < Rabs (1 / 10000) <= 1) by (rewrite Rabs_right; lra). split.
  - apply (C75_identifies _ _ (ofZ (Zm 2 0 0 1 2 3 1 (-2) 3)) "ORCI" (SC_ORCI 2 4 6) mid); auto; try lra.
    + constructor; lra.
    + unfold orthogonal. vunfold. vcomp; ring.
    + replace (mmul (SC_ORCI 2 4 6) mid) with (SC_ORCI 2 4 6) by (unfold SC_ORCI; vunfold; vcomp; field). exact S.
    + unfold niggli_reduced, cell_params, ofZ. vunfold. split; unfold near; cbn [nA nB nC nxi neta nzeta];
        try (left; lra); try lra; try (intros; unfold Rabs in *; repeat destruct Rcase_abs; lra).
    + apply separated_clear_cut; [unfold ofZ; vunfold; lra|vm_compute; reflexivity].
  - change (lepage (Some (fun _ _ => Ok (ofZ (Zm 2 0 0 1 2 3 1 (-2) 3)))) (reversed (SC_ORCI 2 4 6)) (1 / 10000) true 2)
      with (lepage None (reversed (SC_ORCI 2 4 6)) (1 / 10000) true 2).
    apply (C75_reversed_vector 2 4 6); auto; try lra.
    replace (reversed (SC_ORCI 2 4 6)) with (ofZ (Zm 1 (-2) (-3) 1 (-2) 3 1 2 (-3))) by (unfold ofZ, reversed, SC_ORCI; vunfold; vcomp; field).
    apply separated_clear_cut; [unfold ofZ; vunfold; lra|vm_compute; reflexivity].
Qed.
