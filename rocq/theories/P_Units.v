(* P_Units.v : C69, the results in another unit of length. *)
From Verif Require Import Base M_Strings M_Dict M_Numerical M_Geometry M_Cell M_Niggli M_Atoms T_Tables T_Points M_Spglib M_Conventional
  M_Primitive M_Variation M_Kpoints M_Path F_Geometry F_Conventional S_Crystal F_Primitive P_Conventional P_SpglibData F_Crystals P_Primitive
  P_Variation P_Symbol P_Path S_Zone F_Zone F_ZoneCells P_Zone P_ZoneCases.
Open Scope string_scope.
Open Scope list_scope.
Open Scope R_scope.

(* ---- specification ---- *)
(* Two calls that both return: the second result is the first one, in the other unit. *)
Definition agree {A B} (f : A -> B) (r : res A) (r' : res B) : Prop := forall x x', r = Ok x -> r' = Ok x' -> x' = f x.
Definition scale_structure (s : R) (c : mat * atoms_dict) : mat * atoms_dict := (mscale s (fst c), snd c).
(* wave vectors have the dimension of an inverse length *)
Definition scale_points (s : R) (r : string * dict vec) : string * dict vec :=
  (fst r, map (fun kv => (fst kv, vscale (/ s) (snd kv))) (snd r)).
Definition scale_kpoints (s : R) (k : kpoints) : kpoints :=
  Kp (mscale (/ s) (k_rcell k)) (k_names k) (k_coords k) (k_labels k) (k_path k) (k_n k) (k_shared k).
(* the same data in the other unit, found with the tolerance sp *)
Definition scale_data (s sp : R) (d : spglib_data) : spglib_data :=
  SpglibData (mscale s (original_cell d)) (original_positions d) (original_types d) sp (angle_tolerance d)
    (space_group_number d) (crystal_family d) (centring_type d)
    (mscale s (conventional_cell d)) (conventional_positions d) (conventional_types d)
    (mscale s (primitive_cell d)) (primitive_positions d) (primitive_types d).
Definition id_ {A} (x : A) : A := x.

(* ---- the parts ---- *)
Lemma agree_bind {A A' B B'} (f : A -> A') (g : B -> B') r r' k k' : agree f r r' -> (forall x, r = Ok x -> r' = Ok (f x) -> agree g (k x) (k' (f x))) ->
  agree g (bind r k) (bind r' k').
Proof.
  intros H K y y' E E'. destruct r as [x|]; [|discriminate]. destruct r' as [x'|]; [|discriminate]. cbn [bind] in *.
  pose proof (H x x' eq_refl eq_refl). subst x'. apply (K x eq_refl eq_refl); assumption.
Qed.
Lemma agree_ok {A B} (f : A -> B) x : agree f (Ok x) (Ok (f x)).
Proof. intros y y' E E'. congruence. Qed.
Lemma agree_ok2 {A B} (f : A -> B) x y : y = f x -> agree f (Ok x) (Ok y).
Proof. intros ->. apply agree_ok. Qed.
Lemma agree_err {A B} (f : A -> B) e r : agree f (Err e) r.
Proof. intros y y' E. discriminate. Qed.
Lemma agree_err2 {A B} (f : A -> B) e r : agree f r (Err e).
Proof. intros y y' E E'. discriminate. Qed.
Lemma agree_same {A} (r : res A) : agree id_ r r.
Proof. intros y y' E E'. unfold id_. congruence. Qed.
Lemma agree_eq {A} (r r' : res A) : r' = r -> agree id_ r r'.
Proof. intros ->. apply agree_same. Qed.

Lemma mscale_mmul s a b : mmul (mscale s a) b = mscale s (mmul a b).
Proof. destruct a as [[] [] []], b as [[] [] []]. vunfold; vcomp; ring. Qed.
Lemma mmul_mscale s a b : mmul a (mscale s b) = mscale s (mmul a b).
Proof. destruct a as [[] [] []], b as [[] [] []]. vunfold; vcomp; ring. Qed.
Lemma det_mscale s m : det (mscale s m) = s * s * s * det m.
Proof. destruct m as [[] [] []]. vunfold; ring. Qed.
Lemma rows_scale m s : row1 (mscale s m) = vscale s (row1 m) /\ row2 (mscale s m) = vscale s (row2 m) /\ row3 (mscale s m) = vscale s (row3 m).
Proof. destruct m as [[] [] []]. repeat split. Qed.
Lemma tapply_scale k m s : tapply k (mscale s m) = mscale s (tapply k m).
Proof. unfold tapply. apply mmul_mscale. Qed.

Section Unit.
  Context (s : R) (S : 0 < s).
  Lemma norm_scale_pos v : norm (vscale s v) = s * norm v.
  Proof.
    unfold norm. replace (dot (vscale s v) (vscale s v)) with ((s * s) * dot v v) by (destruct v; vunfold; ring).
    rewrite sqrt_mult, sqrt_square; [reflexivity|lra|nra|apply dot_self_nonneg].
  Qed.
  Lemma eps_pos : 0 < FLOAT_EPS. Proof. unfold FLOAT_EPS. lra. Qed.
  Lemma angle_scale u v b : agree id_ (get_angle u v b) (get_angle (vscale s u) (vscale s v) b).
  Proof.
    unfold get_angle. rewrite !norm_scale_pos. pose proof eps_pos as E.
    destruct (_ || _)%bool eqn:A; [apply agree_err|]. destruct (Rleb (Rabs (s * norm u)) _ || _)%bool eqn:B; [apply agree_err2|].
    apply orb_false_iff in A. destruct A as [Au Av]. apply Rleb_false in Au. apply Rleb_false in Av.
    assert (Nu : norm u <> 0) by (intros Z; rewrite Z, Rabs_R0 in Au; lra). assert (Nv : norm v <> 0) by (intros Z; rewrite Z, Rabs_R0 in Av; lra).
    assert (X : forall w, norm w <> 0 -> vscale (/ (s * norm w)) (vscale s w) = vscale (/ norm w) w).
    { intros w N. generalize dependent (norm w). intros n N. destruct w. vunfold. vcomp; field; lra. }
    cbv zeta. rewrite !X by assumption. apply agree_same.
  Qed.
  Definition scale_params (p : params) : params := Params (s * pa p) (s * pb p) (s * pc p) (palpha p) (pbeta p) (pgamma p).
  Lemma params_scale m : agree scale_params (get_params m) (get_params (mscale s m)).
  Proof.
    unfold get_params. destruct (rows_scale m s) as (-> & -> & ->).
    do 3 (apply (agree_bind id_); [apply angle_scale|]; intros ? _ _; unfold id_). rewrite !norm_scale_pos. apply agree_ok2. reflexivity.
  Qed.
  Lemma params_pos m p : get_params m = Ok p -> 0 < pa p /\ 0 < pb p /\ 0 < pc p.
  Proof.
    unfold get_params. intros H. pose proof eps_pos as E.
    assert (P : forall u v b a, get_angle u v b = Ok a -> 0 < norm u /\ 0 < norm v).
    { intros u v b a. unfold get_angle. destruct (_ || _)%bool eqn:A; [discriminate|]. intros _. apply orb_false_iff in A. destruct A as [Au Av].
      apply Rleb_false in Au. apply Rleb_false in Av. rewrite Rabs_pos_eq in Au, Av by apply sqrt_pos. lra. }
    destruct (get_angle (row2 m) (row3 m) false) as [al|] eqn:A1; [|discriminate]. cbn [bind] in H.
    destruct (get_angle (row1 m) (row3 m) false) as [be|] eqn:A2; [|discriminate]. cbn [bind] in H.
    destruct (get_angle (row1 m) (row2 m) false) as [ga|] eqn:A3; [|discriminate]. cbn [bind] in H.
    apply P in A1. apply P in A2. injection H as <-. cbn. intuition.
  Qed.
  Lemma recip_scale m : get_reciprocal (mscale s m) = match get_reciprocal m with Ok r => Ok (mscale (/ s) r) | Err e => Err e end.
  Proof.
    destruct (Req_dec (det m) 0) as [Z|D].
    - rewrite !get_reciprocal_err; [reflexivity|exact Z|rewrite det_mscale, Z; ring].
    - assert (R := get_reciprocal_ok m D). set (r := mscale (2 * PI) (tr (minv_total m))) in R. pose proof (reciprocal_dual _ _ R) as RD. rewrite R.
      apply reciprocal_unique.
      + rewrite det_mscale. repeat apply Rmult_integral_contrapositive_currified; lra.
      + rewrite mscale_mmul. replace (tr (mscale s m)) with (mscale s (tr m)) by (destruct m as [[] [] []]; reflexivity). rewrite mmul_mscale, RD.
        generalize (mscale (2 * PI) mid). intros [[] [] []]. vunfold. vcomp; field; lra.
  Qed.
  Lemma recip_agree m : agree (mscale (/ s)) (get_reciprocal m) (get_reciprocal (mscale s m)).
  Proof. rewrite recip_scale. destruct (get_reciprocal m); [apply agree_ok|apply agree_err]. Qed.
  Lemma minv_scale m : minv (mscale s m) = match minv m with Ok i => Ok (mscale (/ s) i) | Err e => Err e end.
  Proof.
    unfold minv. rewrite det_mscale. destruct (Reqb_spec (det m) 0) as [Z|D].
    - rewrite Z, (proj2 (Reqb_true _ _)) by ring. reflexivity.
    - rewrite (proj2 (Reqb_false _ _)) by (repeat apply Rmult_integral_contrapositive_currified; lra). apply (f_equal Ok). unfold minv_total. rewrite det_mscale.
      generalize dependent (det m). intros x N. destruct m as [[] [] []]. vunfold. vcomp; field; lra.
  Qed.
  Lemma reexpress_scale ps m n : reexpress ps (mscale s m) (mscale s n) = reexpress ps m n.
  Proof.
    unfold reexpress. rewrite minv_scale. destruct (minv n) as [i|e]; cbn [bind]; [|reflexivity]. apply (f_equal Ok). apply map_ext. intros p.
    destruct p, m as [[] [] []], i as [[] [] []]. vunfold. vcomp; field; lra.
  Qed.
End Unit.

Lemma inv_pos s : 0 < s -> 0 < / s. Proof. apply Rinv_0_lt_compat. Qed.
Lemma Rltb_scale s x y : 0 < s -> Rltb (s * x) (s * y) = Rltb x y.
Proof. intros S. destruct (Rltb_spec x y), (Rltb_spec (s * x) (s * y)); auto; exfalso; nra. Qed.
Lemma Rleb_scale s x y : 0 < s -> Rleb (s * x) (s * y) = Rleb x y.
Proof. intros S. destruct (Rleb_spec x y), (Rleb_spec (s * x) (s * y)); auto; exfalso; nra. Qed.
Lemma Reqb_scale s x : s <> 0 -> Reqb (s * x) 0 = Reqb x 0.
Proof.
  intros S. destruct (Reqb_spec x 0) as [Z|N].
  - apply Reqb_true. rewrite Z. ring.
  - apply Reqb_false. intros Z. apply Rmult_integral in Z. tauto.
Qed.

(* With two different tolerances: if the atoms can be grouped with both, the groups are the same. *)
Lemma filter_len {A} (f g : A -> bool) l : (forall x, f x = true -> g x = true) -> length (filter f l) = length (filter g l) -> forall x, In x l -> f x = g x.
Proof.
  intros I. assert (LE : forall l, (length (filter f l) <= length (filter g l))%nat).
  { induction l0 as [|y l0 IH]; [auto|]. cbn [filter]. specialize (I y). destruct (f y); [rewrite I by reflexivity; cbn; lia|]. destruct (g y); cbn; lia. }
  induction l as [|y l IH]; intros E x X; [destruct X|]. cbn [filter] in E. specialize (LE l). pose proof (I y) as Iy.
  destruct (f y) eqn:F.
  - rewrite Iy in E by reflexivity. cbn in E. destruct X as [->|X]; [rewrite F, Iy; reflexivity|]. apply IH; [lia|exact X].
  - destruct (g y) eqn:Gy; [cbn in E; lia|]. destruct X as [->|X]; [rewrite F, Gy; reflexivity|]. apply IH; assumption.
Qed.
Lemma loop_tol tol tol' ps : (forall p x, In p ps -> In x ps -> same_atoms tol p x = same_atoms tol' p x) ->
  forall fuel av, (forall ix, In ix av -> In (snd ix) ps) -> unique_loop tol fuel av = unique_loop tol' fuel av.
Proof.
  intros H. induction fuel as [|fuel IH]; intros av A; [reflexivity|]. destruct av as [|[i p] rest]; [reflexivity|]. cbn [unique_loop].
  assert (E : filter (fun jq => negb (same_atoms tol p (snd jq))) rest = filter (fun jq => negb (same_atoms tol' p (snd jq))) rest).
  { apply filter_ext_in. intros jq J. rewrite H; [reflexivity|apply (A (i, p)); left; reflexivity|apply A; right; exact J]. }
  rewrite E. f_equal. apply IH. intros ix I. apply filter_In in I. apply A. right. apply I.
Qed.
Lemma unique_tol_le tol tol' ps ts rep : tol <= tol' -> agree id_ (get_unique ps ts rep tol) (get_unique ps ts rep tol') /\ agree id_ (get_unique ps ts rep tol') (get_unique ps ts rep tol).
Proof.
  intros L. unfold get_unique. cbv zeta. set (qs := map normal_position ps).
  destruct (forallb (fun p => Z.eqb (n_equiv tol qs p) _) qs) eqn:F; cbn [negb]; [|split; [apply agree_err|apply agree_err2]].
  destruct (forallb (fun p => Z.eqb (n_equiv tol' qs p) _) qs) eqn:F'; cbn [negb]; [|split; [apply agree_err2|apply agree_err]].
  rewrite forallb_forall in F, F'.
  assert (H : forall p x, In p qs -> In x qs -> same_atoms tol p x = same_atoms tol' p x).
  { intros p x P X. refine (filter_len _ _ qs _ _ x X).
    - intros y. unfold same_atoms. rewrite !Rleb_true. lra.
    - specialize (F p P). specialize (F' p P). apply Z.eqb_eq in F. apply Z.eqb_eq in F'. unfold n_equiv in F, F'. lia. }
  rewrite (loop_tol tol tol' qs H).
  - split; apply agree_same.
  - intros ix I. unfold enumerate in I. destruct ix as [i x]. apply in_combine_r in I. exact I.
Qed.
Lemma unique_tol tol tol' ps ts rep : agree id_ (get_unique ps ts rep tol) (get_unique ps ts rep tol').
Proof. destruct (Rle_dec tol tol') as [L|L]; [exact (proj1 (unique_tol_le tol tol' ps ts rep L))|]. refine (proj2 (unique_tol_le tol' tol ps ts rep _)). lra. Qed.

(* ---- the tables depend on ratios of lengths only ---- *)
Lemma agree_if_l {A B} (f : A -> B) x e r r' : (x <> 0 -> agree f r r') -> agree f (if Reqb x 0 then Err e else r) r'.
Proof. intros H. destruct (Reqb_spec x 0); [apply agree_err|auto]. Qed.
Lemma agree_if_r {A B} (f : A -> B) x e r r' : (x <> 0 -> agree f r r') -> agree f r (if Reqb x 0 then Err e else r').
Proof. intros H. destruct (Reqb_spec x 0); [apply agree_err2|auto]. Qed.
Section Tables.
  Context (s a b c : R) (S : 0 < s) (Pa : 0 < a) (Pb : 0 < b) (Pc : 0 < c).
  Ltac nz := first [lra | assumption | let Z := fresh in intro Z; match goal with H : _ <> 0 |- _ => apply H; unfold sq; first [rewrite Z; ring | nra] end].
  Ltac tab :=
    lazymatch goal with
    | |- agree _ (if Reqb ?x 0 then _ else _) _ => apply agree_if_l; intros ?; tab
    | |- agree _ _ (if Reqb ?y 0 then _ else _) => apply agree_if_r; intros ?; tab
    | |- agree _ (let x := ?e in @?k x) (let y := ?e' in @?k' y) =>
        let H := fresh in assert (H : e' = e) by (unfold sq; first [reflexivity | field; repeat split; nz]);
        change (agree id_ (k e) (k' e')); rewrite H; clear H; generalize e; intros; cbv beta; tab
    | |- agree _ (Ok _) (Ok _) => apply agree_same
    end.
  Lemma hpkot_table_73_scale : agree id_ (hpkot_table_73 a c) (hpkot_table_73 (s * a) (s * c)).
  Proof. cbv beta delta [hpkot_table_73]. tab. Qed.
  Lemma hpkot_table_74_scale : agree id_ (hpkot_table_74 a c) (hpkot_table_74 (s * a) (s * c)).
  Proof. cbv beta delta [hpkot_table_74]. tab. Qed.
  Lemma hpkot_table_76_scale : agree id_ (hpkot_table_76 a b c) (hpkot_table_76 (s * a) (s * b) (s * c)).
  Proof. cbv beta delta [hpkot_table_76]. tab. Qed.
  Lemma hpkot_table_77_scale : agree id_ (hpkot_table_77 a b c) (hpkot_table_77 (s * a) (s * b) (s * c)).
  Proof. cbv beta delta [hpkot_table_77]. tab. Qed.
  Lemma hpkot_table_78_scale : agree id_ (hpkot_table_78 a b c) (hpkot_table_78 (s * a) (s * b) (s * c)).
  Proof. cbv beta delta [hpkot_table_78]. tab. Qed.
  Lemma hpkot_table_79_scale : agree id_ (hpkot_table_79 a b c) (hpkot_table_79 (s * a) (s * b) (s * c)).
  Proof. cbv beta delta [hpkot_table_79]. tab. Qed.
  Lemma hpkot_table_80_scale : agree id_ (hpkot_table_80 a b c) (hpkot_table_80 (s * a) (s * b) (s * c)).
  Proof. cbv beta delta [hpkot_table_80]. tab. Qed.
  Lemma hpkot_table_81_scale : agree id_ (hpkot_table_81 a b c) (hpkot_table_81 (s * a) (s * b) (s * c)).
  Proof. cbv beta delta [hpkot_table_81]. tab. Qed.
  Lemma hpkot_table_85_scale : agree id_ (hpkot_table_85 a c) (hpkot_table_85 (s * a) (s * c)).
  Proof. cbv beta delta [hpkot_table_85]. tab. Qed.
  Lemma hpkot_table_86_scale : agree id_ (hpkot_table_86 a c) (hpkot_table_86 (s * a) (s * c)).
  Proof. cbv beta delta [hpkot_table_86]. tab. Qed.
  Lemma hpkot_table_87_scale beta : agree id_ (hpkot_table_87 a c beta) (hpkot_table_87 (s * a) (s * c) beta).
  Proof. cbv beta delta [hpkot_table_87]. tab. Qed.
  Lemma hpkot_table_88_scale beta : agree id_ (hpkot_table_88 a b c beta) (hpkot_table_88 (s * a) (s * b) (s * c) beta).
  Proof. cbv beta delta [hpkot_table_88]. tab. Qed.
  Lemma hpkot_table_89_scale beta : agree id_ (hpkot_table_89 a b c beta) (hpkot_table_89 (s * a) (s * b) (s * c) beta).
  Proof. cbv beta delta [hpkot_table_89]. tab. Qed.
  Lemma hpkot_table_90_scale beta : agree id_ (hpkot_table_90 a b c beta) (hpkot_table_90 (s * a) (s * b) (s * c) beta).
  Proof. cbv beta delta [hpkot_table_90]. tab. Qed.
  Lemma sc_table_6_scale : agree id_ (sc_table_6 a c) (sc_table_6 (s * a) (s * c)).
  Proof. cbv beta delta [sc_table_6]. tab. Qed.
  Lemma sc_table_7_scale : agree id_ (sc_table_7 a c) (sc_table_7 (s * a) (s * c)).
  Proof. cbv beta delta [sc_table_7]. tab. Qed.
  Lemma sc_table_9_scale : agree id_ (sc_table_9 a b c) (sc_table_9 (s * a) (s * b) (s * c)).
  Proof. cbv beta delta [sc_table_9]. tab. Qed.
  Lemma sc_table_10_scale : agree id_ (sc_table_10 a b c) (sc_table_10 (s * a) (s * b) (s * c)).
  Proof. cbv beta delta [sc_table_10]. tab. Qed.
  Lemma sc_table_11_scale : agree id_ (sc_table_11 a b c) (sc_table_11 (s * a) (s * b) (s * c)).
  Proof. cbv beta delta [sc_table_11]. tab. Qed.
  Lemma sc_table_12_scale : agree id_ (sc_table_12 a b) (sc_table_12 (s * a) (s * b)).
  Proof. cbv beta delta [sc_table_12]. tab. Qed.
  Lemma sc_table_16_scale alpha : agree id_ (sc_table_16 b c alpha) (sc_table_16 (s * b) (s * c) alpha).
  Proof. cbv beta delta [sc_table_16]. tab. Qed.
  Lemma sc_table_17_scale alpha : agree id_ (sc_table_17 a b c alpha) (sc_table_17 (s * a) (s * b) (s * c) alpha).
  Proof. cbv beta delta [sc_table_17]. tab. Qed.
  Lemma sc_table_18_scale alpha : agree id_ (sc_table_18 a b c alpha) (sc_table_18 (s * a) (s * b) (s * c) alpha).
  Proof. cbv beta delta [sc_table_18]. tab. Qed.
  Lemma sc_table_19_scale alpha : agree id_ (sc_table_19 a b c alpha) (sc_table_19 (s * a) (s * b) (s * c) alpha).
  Proof. cbv beta delta [sc_table_19]. tab. Qed.
  Lemma hpkot_table_82_scale lt : agree id_ (hpkot_table_82 a b c lt) (hpkot_table_82 (s * a) (s * b) (s * c) lt).
  Proof.
    unfold hpkot_table_82. apply (agree_bind id_); [|intros; apply agree_same]. destruct (String.eqb lt "oA"); [|destruct (String.eqb lt "oC"); [|apply agree_err]].
    all: repeat match goal with |- context [Reqb ?x 0] => destruct (Reqb_spec x 0); [first [apply agree_err | apply agree_err2]|] end.
    all: apply agree_ok2; unfold id_, sq; field; repeat split; nz.
  Qed.
  Lemma hpkot_table_83_scale lt : agree id_ (hpkot_table_83 a b c lt) (hpkot_table_83 (s * a) (s * b) (s * c) lt).
  Proof.
    unfold hpkot_table_83. apply (agree_bind id_); [|intros; apply agree_same]. destruct (String.eqb lt "oA"); [|destruct (String.eqb lt "oC"); [|apply agree_err]].
    all: repeat match goal with |- context [Reqb ?x 0] => destruct (Reqb_spec x 0); [first [apply agree_err | apply agree_err2]|] end.
    all: apply agree_ok2; unfold id_, sq; field; repeat split; nz.
  Qed.
End Tables.

Section Scale.
  Context (s : R) (S : 0 < s).
  Let S' : 0 < / s := inv_pos s S.
  Ltac ab f := apply (agree_bind f); [|let H := fresh "E" in let H' := fresh "E'" in intros ? H H'].
  Ltac pars := ab (scale_params s); [apply params_scale; exact S|]; cbn [scale_params pa pb pc palpha pbeta pgamma].
  Ltac same := ab (@id_ zmat); [apply agree_same|]; unfold id_.
  Ltac back_recip := match goal with |- agree _ (get_reciprocal ?c) _ => let X := fresh in pose proof (recip_agree (/ s) S' c) as X; rewrite Rinv_inv in X; exact X end.
  Ltac fin := rewrite ?tapply_scale; apply agree_ok.
  Lemma oPFI_scale m : agree (mscale s) (sc_conventional_oPFI m) (sc_conventional_oPFI (mscale s m)).
  Proof. unfold sc_conventional_oPFI. pars. unfold order_matrix. rewrite !Rltb_scale by exact S. same. fin. Qed.
  Lemma oC_scale m : agree (mscale s) (sc_conventional_oC m) (sc_conventional_oC (mscale s m)).
  Proof. unfold sc_conventional_oC. pars. rewrite !Rltb_scale by exact S. same. fin. Qed.
  Lemma m_scale m ce eps : agree (mscale s) (sc_conventional_m m ce eps) (sc_conventional_m (mscale s m) ce eps).
  Proof.
    unfold sc_conventional_m. pars. same. cbv zeta. rewrite tapply_scale. pars. rewrite Rleb_scale by exact S. rewrite tapply_scale. pars. fin.
  Qed.
  Lemma a_scale m eps : agree (mscale s) (sc_conventional_a m eps) (sc_conventional_a (mscale s m) eps).
  Proof.
    unfold sc_conventional_a. ab (mscale (/ s)); [apply recip_agree; exact S|]. ab (scale_params (/ s)); [apply params_scale; exact S'|].
    cbn [scale_params pa pb pc palpha pbeta pgamma]. same. cbv zeta. rewrite tapply_scale. ab (scale_params (/ s)); [apply params_scale; exact S'|].
    cbn [scale_params pa pb pc palpha pbeta pgamma]. same. ab (mscale s).
    - back_recip.
    - fin.
  Qed.
  Lemma hR_scale m ae de de' : agree (mscale s) (sc_conventional_hR m ae de) (sc_conventional_hR (mscale s m) ae de').
  Proof. unfold sc_conventional_hR. pars. destruct (_ || _)%bool; [apply agree_err|]. destruct (_ || _)%bool; [apply agree_err2|]. cbv zeta. same. fin. Qed.
  Lemma no_hR_scale m f ce eps : agree (mscale s) (sc_conventional_no_hR m f ce eps) (sc_conventional_no_hR (mscale s m) f ce eps).
  Proof.
    unfold sc_conventional_no_hR. destruct (_ || _)%bool; [apply agree_ok|]. destruct (String.eqb f "o").
    - destruct (mem ce _); [apply oPFI_scale|]. destruct (String.eqb ce "C"); [apply oC_scale|]. destruct (String.eqb ce "A"); [|apply agree_err].
      rewrite tapply_scale. apply oC_scale.
    - destruct (String.eqb f "m"); [apply m_scale|]. destruct (String.eqb f "a"); [apply a_scale|apply agree_err].
  Qed.

  Context (l : option spglib_module)
    (N : forall lib, l = Some lib -> forall t c eps, 0 < t -> agree (mscale t) (niggli_reduce lib c eps) (niggli_reduce lib (mscale t c) eps)).
  Lemma niggli_scale t c eps n : 0 < t -> agree (mscale t) (get_niggli (lib_niggli l) c eps "spglib" n) (get_niggli (lib_niggli l) (mscale t c) eps "spglib" n).
  Proof. intros P. unfold get_niggli. cbn -[mscale]. destruct l as [lib|]; cbn [lib_niggli]; [apply N; auto|apply agree_err]. Qed.
  Lemma hpkot_a_scale m : agree (mscale s) (hpkot_conventional_a (lib_niggli l) m) (hpkot_conventional_a (lib_niggli l) (mscale s m)).
  Proof.
    unfold hpkot_conventional_a. ab (mscale (/ s)); [apply recip_agree; exact S|]. ab (mscale (/ s)); [apply niggli_scale; exact S'|].
    ab (mscale s); [back_recip|].
    match goal with |- context [row2 (mscale (/ s) ?m)] => destruct (rows_scale m (/ s)) as (-> & -> & ->) end.
    assert (D : forall u v, Rabs (dot (vscale (/ s) u) (vscale (/ s) v)) = (/ s * / s) * Rabs (dot u v)).
    { intros u v. replace (dot (vscale (/ s) u) (vscale (/ s) v)) with ((/ s * / s) * dot u v) by (generalize (/ s); intros; destruct u, v; vunfold; ring).
      rewrite Rabs_mult. f_equal. apply Rabs_pos_eq. nra. }
    rewrite !D. unfold dots_matrix. rewrite !Rleb_scale by nra. same. cbv zeta. rewrite tapply_scale.
    ab (mscale (/ s)); [apply recip_agree; exact S|]. ab (scale_params (/ s)); [apply params_scale; exact S'|].
    cbn [scale_params pa pb pc palpha pbeta pgamma]. same. fin.
  Qed.
  Definition scale_triple (x : mat * list vec * list Z) : mat * list vec * list Z := (mscale s (fst (fst x)), snd (fst x), snd x).
  Lemma conventional_scale d sp cv : agree scale_triple (conventional_structure (lib_niggli l) d cv) (conventional_structure (lib_niggli l) (scale_data s sp d) cv).
  Proof.
    unfold conventional_structure. cbv zeta. unfold scale_data at 1 3 5.
    cbn [scale_data crystal_family centring_type conventional_cell conventional_positions conventional_types primitive_cell primitive_positions primitive_types symprec].
    change (spglib_angle_or_default (scale_data s sp d)) with (spglib_angle_or_default d).
    destruct (_ || _)%bool.
    - destruct (_ && _)%bool; [|apply agree_ok2; reflexivity]. ab (mscale s); [apply hpkot_a_scale|]. rewrite reexpress_scale by exact S.
      ab (@id_ (list vec)); [apply agree_same|]. apply agree_ok2. reflexivity.
    - destruct (String.eqb _ "sc"); [|apply agree_err]. destruct (_ && _)%bool.
      + ab (mscale s); [apply hR_scale|]. rewrite reexpress_scale by exact S. ab (@id_ (list vec)); [apply agree_same|]. apply agree_ok2. reflexivity.
      + ab (mscale s); [apply no_hR_scale|]. rewrite reexpress_scale by exact S. ab (@id_ (list vec)); [apply agree_same|]. apply agree_ok2. reflexivity.
  Qed.

  Context (cell : mat) (atoms : atoms_dict).
  Definition accepted (sp : R) (d : spglib_data) : Prop :=
    obtain_data l cell atoms (Data d) = Ok d /\ obtain_data l (mscale s cell) atoms (Data (scale_data s sp d)) = Ok (scale_data s sp d).
  Lemma get_conventional_scale sp d cv : accepted sp d ->
    agree (scale_structure s) (get_conventional l cell atoms cv (Data d)) (get_conventional l (mscale s cell) atoms cv (Data (scale_data s sp d))).
  Proof.
    intros (G & G'). unfold get_conventional. rewrite G, G'. cbn [bind]. ab scale_triple; [apply conventional_scale|].
    match goal with x : (mat * list vec * list Z)%type |- _ => destruct x as [[c ps] ts] end. cbn [scale_triple fst snd]. change (original_types (scale_data s sp d)) with (original_types d).
    ab (@id_ atoms_dict); [apply agree_same|]. apply agree_ok2. reflexivity.
  Qed.
  Lemma ratio_scale m n : det (mscale s m) / det (mscale s n) = det m / det n.
  Proof.
    rewrite !det_mscale. destruct (Req_dec (det n) 0) as [Z|Z].
    - rewrite Z, Rmult_0_r. unfold Rdiv. rewrite Rinv_0. ring.
    - field; repeat split; (exact Z || lra).
  Qed.
  Lemma structure_scale sp d cv : accepted sp d ->
    agree scale_triple (primitive_structure l cell atoms d cv) (primitive_structure l (mscale s cell) atoms (scale_data s sp d) cv).
  Proof.
    intros G. unfold primitive_structure. cbv zeta.
    change (crystal_family (scale_data s sp d)) with (crystal_family d). change (centring_type (scale_data s sp d)) with (centring_type d).
    change (symprec (scale_data s sp d)) with sp.
    destruct (String.eqb (lower cv) "spglib"); [apply agree_ok2; reflexivity|]. destruct (mem (lower cv) _); [|apply agree_err].
    ab (scale_structure s); [apply get_conventional_scale; exact G|].
    match goal with x : (mat * atoms_dict)%type |- _ => destruct x as [c new] end. cbn [scale_structure fst snd].
    ab (@id_ mat); [apply agree_same|]. unfold id_. rewrite mmul_mscale. ab (@id_ pyval); [apply agree_same|]. unfold id_.
    ab (@id_ (list vec)); [apply agree_same|]. unfold id_. rewrite reexpress_scale by exact S.
    ab (@id_ (list vec)); [apply agree_same|]. unfold id_. ab (@id_ pyval); [apply agree_same|]. unfold id_. rewrite ratio_scale.
    ab (@id_ (list vec * list Z)); [apply unique_tol|]. unfold id_.
    match goal with x : (list vec * list Z)%type |- _ => destruct x end. apply agree_ok2. reflexivity.
  Qed.
  Lemma get_primitive_scale sp d cv : accepted sp d ->
    agree (scale_structure s) (get_primitive l cell atoms cv (Data d)) (get_primitive l (mscale s cell) atoms cv (Data (scale_data s sp d))).
  Proof.
    intros G. pose proof G as (A & B). unfold get_primitive. rewrite A, B. cbn [bind]. ab scale_triple; [apply structure_scale; exact G|].
    match goal with x : (mat * list vec * list Z)%type |- _ => destruct x as [[c ps] ts] end. cbn [scale_triple fst snd].
    change (original_types (scale_data s sp d)) with (original_types d).
    ab (@id_ atoms_dict); [apply agree_same|]. apply agree_ok2. reflexivity.
  Qed.
  Lemma inv_sqr_scale x : agree (Rmult (/ s * / s)) (inv_sqr x) (inv_sqr (s * x)).
  Proof.
    unfold inv_sqr. replace (s * x * (s * x)) with ((s * s) * (x * x)) by ring. rewrite (Reqb_scale (s * s) (x * x)) by (apply Rmult_integral_contrapositive_currified; lra).
    destruct (Reqb_spec (x * x) 0) as [Z|Z]; [apply agree_err|]. apply agree_ok2.
    assert (X : x <> 0) by (intros Y; apply Z; rewrite Y; ring). field; repeat split; (exact X || lra).
  Qed.
  Lemma symbol_scale sp d : accepted sp d ->
    agree id_ (hpkot_get_extended_bl_symbol l cell atoms (Data d)) (hpkot_get_extended_bl_symbol l (mscale s cell) atoms (Data (scale_data s sp d))).
  Proof.
    intros G. pose proof G as (A & B). unfold hpkot_get_extended_bl_symbol. rewrite A, B. cbn [bind]. cbv zeta.
    change (lattice_type (scale_data s sp d)) with (lattice_type d). change (space_group_number (scale_data s sp d)) with (space_group_number d).
    destruct (mem (lattice_type d) _); [apply agree_same|]. destruct (String.eqb _ "cP"); [apply agree_same|]. destruct (String.eqb _ "cF"); [apply agree_same|].
    destruct (String.eqb _ "hP"); [apply agree_same|]. ab (scale_structure s); [apply get_conventional_scale; exact G|].
    match goal with x : (mat * atoms_dict)%type |- _ => destruct x as [c new] end. cbn [scale_structure fst snd]. ab (scale_params s); [apply params_scale; exact S|].
    cbn [scale_params pa pb pc palpha pbeta pgamma]. rewrite !Rleb_scale by exact S. pose proof (params_pos _ _ E0) as (Pa & Pb & Pc).
    destruct (String.eqb _ "tI"); [apply agree_same|]. destruct (String.eqb _ "oF").
    { do 3 (ab (Rmult (/ s * / s)); [apply inv_sqr_scale|]). rewrite <- !Rmult_plus_distr_l, !Rltb_scale by nra. apply agree_same. }
    destruct (String.eqb _ "oI"); [apply agree_same|]. destruct (String.eqb _ "oC"); [apply agree_same|]. destruct (String.eqb _ "oA"); [apply agree_same|].
    destruct (String.eqb _ "hR").
    { match goal with |- context [sqrt 3 * (s * ?x)] => replace (sqrt 3 * (s * x)) with (s * (sqrt 3 * x)) by ring end.
      match goal with |- context [sqrt 2 * (s * ?x)] => replace (sqrt 2 * (s * x)) with (s * (sqrt 2 * x)) by ring end.
      rewrite !Rleb_scale by exact S. apply agree_same. }
    destruct (String.eqb _ "mC").
    { match goal with x : params |- _ => rename x into p end. set (be := pbeta p * TORADIANS).
      replace (s * pa p * sin be) with (s * (pa p * sin be)) by ring. rewrite !Rleb_scale by exact S. destruct (Rleb _ _); [apply agree_same|].
      rewrite !Reqb_scale by lra. destruct (_ || _)%bool; [apply agree_err|].
      replace (- (s * pa p) * cos be / (s * pc p) + s * (pa p * sin be) / (s * pb p) * (s * (pa p * sin be) / (s * pb p)))
        with (- pa p * cos be / pc p + pa p * sin be / pb p * (pa p * sin be / pb p)) by (field; lra). apply agree_same. }
    destruct (String.eqb _ "aP"); [|apply agree_err]. ab (mscale (/ s)); [apply recip_agree; exact S|].
    ab (scale_params (/ s)); [apply params_scale; exact S'|]. cbn [scale_params pa pb pc palpha pbeta pgamma]. apply agree_same.
  Qed.
  Lemma BCT_scale a c : BCT_variation (s * a) (s * c) = BCT_variation a c.
  Proof. unfold BCT_variation. rewrite !Rltb_scale by exact S. reflexivity. Qed.
  Lemma MCLC_scale a b c al kg de ae : 0 < a -> 0 < b -> 0 < c -> MCLC_variation (s * a) (s * b) (s * c) al kg de ae = MCLC_variation a b c al kg de ae.
  Proof.
    intros A B C. unfold MCLC_variation. cbv zeta. replace (s * a * (s * a)) with ((s * s) * (a * a)) by ring.
    rewrite (Reqb_scale s c), (Reqb_scale (s * s) (a * a)) by nra. set (x := al * TORADIANS).
    replace (s * b * cos x / (s * c) + s * b * (s * b) * (sin x * sin x) / (s * s * (a * a))) with (b * cos x / c + b * b * (sin x * sin x) / (a * a)) by (field; lra).
    reflexivity.
  Qed.
  Lemma variation_scale sp d : accepted sp d -> lattice_type d <> "oF" -> (lattice_type d = "mC" -> sp = symprec d) ->
    agree id_ (sc_get_variation l cell atoms (Data d)) (sc_get_variation l (mscale s cell) atoms (Data (scale_data s sp d))).
  Proof.
    intros G NF SP. pose proof G as (A & B). unfold sc_get_variation. rewrite A, B. cbn [bind]. cbv zeta.
    change (lattice_type (scale_data s sp d)) with (lattice_type d). change (spglib_angle_or_default (scale_data s sp d)) with (spglib_angle_or_default d).
    change (symprec (scale_data s sp d)) with sp.
    destruct (mem (lattice_type d) _); [|apply agree_same]. ab (scale_structure s); [apply get_conventional_scale; exact G|].
    match goal with x : (mat * atoms_dict)%type |- _ => destruct x as [c new] end. cbn [scale_structure fst snd]. ab (scale_params s); [apply params_scale; exact S|].
    cbn [scale_params pa pb pc palpha pbeta pgamma]. pose proof (params_pos _ _ E0) as (Pa & Pb & Pc).
    destruct (String.eqb _ "tI"); [rewrite BCT_scale; apply agree_same|]. destruct (String.eqb_spec (lattice_type d) "oF"); [contradiction|].
    destruct (String.eqb _ "hR"); [apply agree_same|]. destruct (String.eqb_spec (lattice_type d) "mC") as [MC|_].
    - specialize (SP MC). subst sp. ab (scale_structure s); [apply get_primitive_scale; exact G|].
      match goal with x : (mat * atoms_dict)%type |- _ => destruct x as [c' new'] end. cbn [scale_structure fst snd].
      ab (mscale (/ s)); [apply recip_agree; exact S|]. ab (scale_params (/ s)); [apply params_scale; exact S'|].
      cbn [scale_params pa pb pc palpha pbeta pgamma]. rewrite MCLC_scale by assumption. apply agree_same.
    - destruct (String.eqb _ "aP"); [|apply agree_same]. ab (mscale (/ s)); [apply recip_agree; exact S|].
      ab (scale_params (/ s)); [apply params_scale; exact S'|]. cbn [scale_params pa pb pc palpha pbeta pgamma]. apply agree_same.
  Qed.
  Lemma hpkot_points_scale c lt sy : agree id_ (hpkot_get_points c lt sy) (hpkot_get_points (mscale s c) lt sy).
  Proof.
    unfold hpkot_get_points. ab (scale_params s); [apply params_scale; exact S|]. cbn [scale_params pa pb pc palpha pbeta pgamma]. pose proof (params_pos _ _ E) as (Pa & Pb & Pc).
    repeat (match goal with |- agree _ (if ?b then _ else _) _ => destruct b end;
            [first [apply agree_same | apply hpkot_table_73_scale | apply hpkot_table_74_scale | apply hpkot_table_76_scale | apply hpkot_table_77_scale | apply hpkot_table_78_scale
                   | apply hpkot_table_79_scale | apply hpkot_table_80_scale | apply hpkot_table_81_scale | apply hpkot_table_82_scale | apply hpkot_table_83_scale
                   | apply hpkot_table_85_scale | apply hpkot_table_86_scale | apply hpkot_table_87_scale | apply hpkot_table_88_scale | apply hpkot_table_89_scale | apply hpkot_table_90_scale]; assumption|]).
    apply agree_err.
  Qed.
  Lemma sc_points_scale c lt v : agree id_ (sc_get_points c lt v) (sc_get_points (mscale s c) lt v).
  Proof.
    unfold sc_get_points. ab (scale_params s); [apply params_scale; exact S|]. cbn [scale_params pa pb pc palpha pbeta pgamma]. pose proof (params_pos _ _ E) as (Pa & Pb & Pc).
    destruct (lookup lt _); [|apply agree_err].
    repeat lazymatch goal with |- agree _ (if ?b then _ else _) _ => destruct b end;
    lazymatch goal with
    | |- agree _ (Err _) _ => apply agree_err
    | |- agree _ ?t ?t => apply agree_same
    | |- agree _ (sc_table_6 _ _) _ => apply sc_table_6_scale; assumption
    | |- agree _ (sc_table_7 _ _) _ => apply sc_table_7_scale; assumption
    | |- agree _ (sc_table_9 _ _ _) _ => apply sc_table_9_scale; assumption
    | |- agree _ (sc_table_10 _ _ _) _ => apply sc_table_10_scale; assumption
    | |- agree _ (sc_table_11 _ _ _) _ => apply sc_table_11_scale; assumption
    | |- agree _ (sc_table_12 _ _) _ => apply sc_table_12_scale; assumption
    | |- agree _ (sc_table_16 _ _ _) _ => apply sc_table_16_scale; assumption
    | |- agree _ (sc_table_17 _ _ _ _) _ => apply sc_table_17_scale; assumption
    | |- agree _ (sc_table_18 _ _ _ _) _ => apply sc_table_18_scale; assumption
    | |- agree _ (sc_table_19 _ _ _ _) _ => apply sc_table_19_scale; assumption
    end.
  Qed.
  Lemma place_rel_scale r pts : place_points (mscale (/ s) r) (mscale s cell) true pts = place_points r cell true pts.
  Proof.
    unfold place_points. cbv beta iota. rewrite recip_scale by exact S. destruct (get_reciprocal cell) as [b|e]; cbn [bind]; [|reflexivity].
    rewrite (minv_scale (/ s) S'), Rinv_inv. destruct (minv b) as [i|e]; cbn [bind]; [|reflexivity]. apply (f_equal Ok). apply map_ext. intros [k p]. cbn [fst snd].
    apply (f_equal (pair k)). destruct p, r as [[] [] []], i as [[] [] []]. vunfold. vcomp; field; lra.
  Qed.
  Definition sp_ (pts : dict vec) : dict vec := map (fun kv => (fst kv, vscale (/ s) (snd kv))) pts.
  Lemma place_abs_scale r pts : agree sp_ (place_points r cell false pts) (place_points (mscale (/ s) r) (mscale s cell) false pts).
  Proof.
    unfold place_points, sp_. cbn [bind]. apply agree_ok2. rewrite map_map. apply map_ext. intros [k p]. cbn [fst snd]. apply (f_equal (pair k)).
    destruct p, r as [[] [] []]. vunfold. vcomp; ring.
  Qed.
  Lemma setitem_sp k v pts : setitem k (vscale (/ s) v) (sp_ pts) = sp_ (setitem k v pts).
  Proof. unfold sp_. induction pts as [|[k' v'] pts IH]; [reflexivity|]. cbn [setitem map fst snd]. destruct (String.eqb k k'); [reflexivity|]. cbn [map fst snd]. rewrite IH. reflexivity. Qed.
  Lemma extend_sp pts : extend_points (sp_ pts) = sp_ (extend_points pts).
  Proof.
    unfold extend_points. generalize pts at 2 4. intros acc. revert acc. induction pts as [|[k v] pts IH]; intros acc; [reflexivity|].
    cbn [sp_ map fold_left fst snd]. fold (sp_ pts). destruct (String.eqb k "GAMMA"); [apply IH|].
    assert (V : vneg (vscale (/ s) v) = vscale (/ s) (vneg v)) by (generalize (/ s); destruct v; intros; vunfold; vcomp; ring).
    rewrite V, setitem_sp. apply IH.
  Qed.
  Lemma path_scale sp d cv ti (rel : bool) : accepted sp d ->
    (lower cv = "sc" -> lattice_type d <> "oF" /\ (lattice_type d = "mC" -> sp = symprec d)) ->
    agree (fun r => if rel then r else scale_points s r) (get_path_and_points l cell atoms (Data d) cv ti rel)
      (get_path_and_points l (mscale s cell) atoms (Data (scale_data s sp d)) cv ti rel).
  Proof.
    intros G SC. pose proof G as (A & B). unfold get_path_and_points. rewrite A, B. cbn [bind].
    ab (scale_structure s); [apply get_conventional_scale; exact G|]. match goal with x : (mat * atoms_dict)%type |- _ => destruct x as [c new] end. cbn [scale_structure fst snd].
    ab (scale_structure s); [apply get_primitive_scale; exact G|]. match goal with x : (mat * atoms_dict)%type |- _ => destruct x as [c' new'] end. cbn [scale_structure fst snd].
    cbv zeta. change (lattice_type (scale_data s sp d)) with (lattice_type d). change (space_group_number (scale_data s sp d)) with (space_group_number d).
    ab (@id_ (dict vec * string)).
    { destruct (String.eqb_spec (lower cv) "sc") as [L|_].
      - specialize (SC L). ab (@id_ (option string)); [apply variation_scale; [exact G|apply SC|apply SC]|]. unfold id_ at 1 2.
        ab (@id_ (dict vec)); [apply sc_points_scale|]. unfold id_ at 1 2. apply agree_same.
      - destruct (String.eqb _ "hpkot"); [|apply agree_err]. ab (@id_ string); [apply symbol_scale; exact G|]. unfold id_ at 1 2.
        ab (@id_ (dict vec)); [apply hpkot_points_scale|]. unfold id_ at 1 2. apply agree_same. }
    unfold id_. match goal with x : (dict vec * string)%type |- _ => destruct x as [pts kp] end.
    ab (mscale (/ s)); [apply recip_agree; exact S|]. destruct rel.
    - rewrite place_rel_scale. apply agree_same.
    - ab sp_; [apply place_abs_scale|]. ab (@id_ bool); [apply agree_same|]. unfold id_. destruct (_ && _)%bool.
      + ab (@id_ string); [apply agree_same|]. unfold id_. apply agree_ok2. rewrite extend_sp. reflexivity.
      + apply agree_ok2. reflexivity.
  Qed.
End Scale.

(* ---- C69 ---- *)
(* What is asked of the library: the reduced cell is computed in any unit. *)
Definition any_unit (l : option spglib_module) : Prop :=
  forall lib, l = Some lib -> forall t c eps, 0 < t -> agree (mscale t) (niggli_reduce lib c eps) (niggli_reduce lib (mscale t c) eps).
Theorem C69_units : forall l s sp cell atoms d, 0 < s -> any_unit l ->
  obtain_data l cell atoms (Data d) = Ok d ->
  let d' := scale_data s sp d in let cell' := mscale s cell in
  obtain_data l cell' atoms (Data d') = Ok d' ->
  (forall cv, agree (scale_structure s) (get_conventional l cell atoms cv (Data d)) (get_conventional l cell' atoms cv (Data d'))) /\
  (forall cv, agree (scale_structure s) (get_primitive l cell atoms cv (Data d)) (get_primitive l cell' atoms cv (Data d'))) /\
  agree id_ (hpkot_get_extended_bl_symbol l cell atoms (Data d)) (hpkot_get_extended_bl_symbol l cell' atoms (Data d')) /\
  (forall cv ti, lower cv = "hpkot" ->
     agree id_ (get_path_and_points l cell atoms (Data d) cv ti true) (get_path_and_points l cell' atoms (Data d') cv ti true) /\
     agree (scale_points s) (get_path_and_points l cell atoms (Data d) cv ti false) (get_path_and_points l cell' atoms (Data d') cv ti false) /\
     forall n, agree (scale_kpoints s) (from_crystal l cell atoms cv ti n (Data d)) (from_crystal l cell' atoms cv ti n (Data d'))).
Proof.
  intros l s sp cell atoms d S N A d' cell' B. assert (G : accepted s l cell atoms sp d) by (split; assumption).
  split; [intros; apply get_conventional_scale; assumption|]. split; [intros; apply get_primitive_scale; assumption|]. split; [apply symbol_scale; assumption|].
  intros cv ti L. assert (NS : lower cv = "sc" -> lattice_type d <> "oF" /\ (lattice_type d = "mC" -> sp = symprec d)) by (rewrite L; discriminate).
  assert (P : agree id_ (get_path_and_points l cell atoms (Data d) cv ti true) (get_path_and_points l cell' atoms (Data d') cv ti true))
    by (apply (path_scale s S l N cell atoms sp d cv ti true G NS)).
  split; [exact P|]. split; [apply (path_scale s S l N cell atoms sp d cv ti false G NS)|].
  intros n. unfold from_crystal. apply (agree_bind id_); [exact P|]. intros [path pts] _ _. unfold id_.
  apply (agree_bind id_); [apply agree_same|]. intros labels _ _. unfold id_. apply (agree_bind (mscale (/ s))); [apply recip_agree; exact S|]. intros r _ _.
  unfold init. apply (agree_bind id_); [apply agree_same|]. intros ? _ _. unfold id_. apply (agree_bind id_); [apply agree_same|]. intros ? _ _. unfold id_.
  cbv zeta. apply (agree_bind id_); [apply agree_same|]. intros ? _ _. unfold id_. apply agree_ok2. reflexivity.
Qed.
Print Assumptions C69_units.
(* The convention of Setyawan and Curtarolo: the same, except for face-centred orthorhombic crystals and,
   if the tolerance is changed together with the unit, for base-centred monoclinic ones. *)
Theorem C69_units_sc : forall l s sp cell atoms d, 0 < s -> any_unit l ->
  obtain_data l cell atoms (Data d) = Ok d ->
  let d' := scale_data s sp d in let cell' := mscale s cell in
  obtain_data l cell' atoms (Data d') = Ok d' ->
  String.append (crystal_family d) (centring_type d) <> "oF" -> (String.append (crystal_family d) (centring_type d) = "mC" -> sp = symprec d) ->
  agree id_ (sc_get_variation l cell atoms (Data d)) (sc_get_variation l cell' atoms (Data d')) /\
  forall cv ti, 
     agree id_ (get_path_and_points l cell atoms (Data d) cv ti true) (get_path_and_points l cell' atoms (Data d') cv ti true) /\
     agree (scale_points s) (get_path_and_points l cell atoms (Data d) cv ti false) (get_path_and_points l cell' atoms (Data d') cv ti false).
Proof.
  intros l s sp cell atoms d S N A d' cell' B NF MC. assert (G : accepted s l cell atoms sp d) by (split; assumption).
  split; [apply variation_scale; assumption|]. intros cv ti.
  split; [apply (path_scale s S l N cell atoms sp d cv ti true G)|apply (path_scale s S l N cell atoms sp d cv ti false G)]; split; assumption.
Qed.
Print Assumptions C69_units_sc.

(* The scaled crystal of the examples is the crystal with the scaled conventional cell. *)
Lemma crystal_scaled s n f ce m c zs : scale_data s (/ 100000) (crystal_data n f ce m c zs) = crystal_data n f ce m (mscale s c) zs /\
  mscale s (mmul (tr m) c) = mmul (tr m) (mscale s c).
Proof. rewrite mmul_mscale. unfold scale_data, crystal_data. cbn. rewrite <- mmul_mscale. split; reflexivity. Qed.
Lemma scale_diag s x y z : mscale s (mk x 0 0 0 y 0 0 0 z) = mk (s * x) 0 0 0 (s * y) 0 0 0 (s * z).
Proof. unfold mk. vunfold. vcomp; ring. Qed.
Definition fcc_points := [Zv 0 0 0; Zv 1 0 0; Zv 0 1 0; Zv 0 0 1].
Lemma orcf_params x y z : / 10 <= x -> x < y -> y < z -> let c := mk x 0 0 0 y 0 0 0 z in
  sc_params None (mmul (tr t_F) c) one_atom (crystal_data 69 "o" "F" t_F c fcc_points) c (params_val c) /\
  pa (params_val c) = x /\ pb (params_val c) = y /\ pc (params_val c) = z.
Proof.
  intros X Y Z c. assert (B : big c) by (unfold c; apply big_diag; lra).
  destruct (norm_diag x y z) as (P1 & P2 & P3 & _); try lra. fold c in P1, P2, P3. split; [|auto].
  assert (DC : det c <> 0) by (apply inverse_diag; lra).
  assert (E : sc_conventional_no_hR c "o" "F" (/ 10000) = Ok c).
  { change (sc_conventional_no_hR c "o" "F" (/ 10000)) with (sc_conventional_oPFI c). unfold sc_conventional_oPFI. rewrite (get_params_val _ B). cbn [bind].
    rewrite P1, P2, P3. unfold order_matrix. destruct (Rltb_spec x y), (Rltb_spec y z); try (exfalso; lra). cbn [andb bind]. unfold c, mk. rewrite tapply_eye. reflexivity. }
  split; [|apply get_params_val; exact B]. eexists. apply (crystal_sc 69 "o" "F" t_F c _ "SC" c eq_refl eq_refl E DC).
Qed.
Lemma orcf_symprec c : symprec (crystal_data 69 "o" "F" t_F c fcc_points) = / 100000. Proof. reflexivity. Qed.
(* Face-centred orthorhombic: the same crystal is ORCF2 or ORCF3, depending on the unit of length. *)
Theorem C69_units_oF_refuted : exists cell d, det cell <> 0 /\ obtain_data None cell one_atom (Data d) = Ok d /\
  obtain_data None (mscale 2 cell) one_atom (Data (scale_data 2 (symprec d) d)) = Ok (scale_data 2 (symprec d) d) /\
  sc_get_variation None cell one_atom (Data d) = Ok (Some "ORCF2") /\
  sc_get_variation None (mscale 2 cell) one_atom (Data (scale_data 2 (symprec d) d)) = Ok (Some "ORCF3").
Proof.
  set (x := 1 + / 100000). set (c := mk x 0 0 0 (5 / 4) 0 0 0 (5 / 3)). set (d := crystal_data 69 "o" "F" t_F c fcc_points).
  destruct (crystal_scaled 2 69 "o" "F" t_F c fcc_points) as (E1 & E2). unfold c in E1 at 2. unfold c in E2 at 2. rewrite scale_diag in E1, E2.
  exists (mmul (tr t_F) c), d. change (symprec d) with (/ 100000). unfold d at 3 4 6. rewrite E1, E2.
  split. { rewrite det_mmul, det_tr. unfold c, x. intros Z. apply Rmult_integral in Z. destruct Z as [Z|Z]; [revert Z; det_num|revert Z; apply inverse_diag; lra]. }
  split; [apply crystal_obtain|]. split; [apply crystal_obtain|]. split.
  - destruct (orcf_params x (5 / 4) (5 / 3)) as (HP & P1 & P2 & P3); try (unfold x; lra). fold c in HP, P1, P2, P3.
    assert (SP : 0 <= symprec (crystal_data 69 "o" "F" t_F c fcc_points)) by (cbn; lra).
    destruct (C39_orthorhombic _ _ _ _ _ _ _ (crystal_obtain 69 "o" "F" t_F c _ None) eq_refl eq_refl HP SP) as (_ & V & _).
    apply V. rewrite P1, P2, P3, orcf_symprec. unfold inverse_square. split; [unfold x; split; lra|]. unfold x. lra.
  - destruct (orcf_params (2 * x) (2 * (5 / 4)) (2 * (5 / 3))) as (HP & P1 & P2 & P3); try (unfold x; lra).
    assert (SP : 0 <= symprec (crystal_data 69 "o" "F" t_F (mk (2 * x) 0 0 0 (2 * (5 / 4)) 0 0 0 (2 * (5 / 3))) fcc_points)) by (cbn; lra).
    destruct (C39_orthorhombic _ _ _ _ _ _ _ (crystal_obtain 69 "o" "F" t_F _ _ None) eq_refl eq_refl HP SP) as (_ & _ & V & _).
    apply V. rewrite P1, P2, P3, orcf_symprec. unfold inverse_square. split; [unfold x; split; lra|]. apply Rabs_le. unfold x. lra.
Qed.
Print Assumptions C69_units_oF_refuted.
(* A face-centred cubic crystal, in two units: both calls return. *)
Lemma fcc_path e : / 10 <= e -> let c := mk e 0 0 0 e 0 0 0 e in
  exists path pts, get_path_and_points None (mmul (tr t_F) c) one_atom (Data (crystal_data 225 "c" "F" t_F c fcc_points)) "HPKOT" true false = Ok (path, pts).
Proof.
  intros X c. assert (B : big c) by (unfold c; apply big_diag; lra).
  assert (SY : hpkot_get_extended_bl_symbol None (mmul (tr t_F) c) one_atom (Data (crystal_data 225 "c" "F" t_F c fcc_points)) = Ok "cF2").
  { apply (C40_by_space_group None _ one_atom (Data _) _ (crystal_obtain 225 "c" "F" t_F c fcc_points None)); [right; left; reflexivity|]. unfold in_range. cbn. lia. }
  assert (DC : det c <> 0) by (apply inverse_diag; lra).
  assert (DK : det t_F <> 0) by det_num.
  assert (PR : exists pts0, hpkot_get_points c "cF" "cF2" = Ok pts0 /\ processed (mmul (tr t_F) c) (crystal_data 225 "c" "F" t_F c fcc_points) "HPKOT" c (rec_of (mmul (tr t_F) c)) (map (fun kv => (fst kv, vmat (snd kv) (rec_of (mmul (tr t_F) c)))) pts0)).
  { eexists. split; [unfold hpkot_get_points; rewrite (get_params_val _ B); reflexivity|].
    eapply (hpkot_crystal 225 "c" "F" c _ t_F "cF2"); [discriminate|reflexivity|exact DC|exact DK|discriminate|unfold fcc_points; count_points|number| |exact B| |reflexivity].
    + intros _. exact SY.
    + unfold hpkot_get_points. rewrite (get_params_val _ B). reflexivity. }
  destruct PR as (pts0 & _ & _ & _ & _ & (path & P)). do 2 eexists. exact P.
Qed.
Example C69_case : exists cell d path pts, det cell <> 0 /\ any_unit None /\
  obtain_data None cell one_atom (Data d) = Ok d /\
  obtain_data None (mscale 10 cell) one_atom (Data (scale_data 10 (symprec d) d)) = Ok (scale_data 10 (symprec d) d) /\
  get_path_and_points None cell one_atom (Data d) "HPKOT" true false = Ok (path, pts) /\
  get_path_and_points None (mscale 10 cell) one_atom (Data (scale_data 10 (symprec d) d)) "HPKOT" true false =
    Ok (path, map (fun kv => (fst kv, vscale (/ 10) (snd kv))) pts).
Proof.
  set (c := mk 2 0 0 0 2 0 0 0 2). set (d := crystal_data 225 "c" "F" t_F c fcc_points).
  destruct (fcc_path 2) as (path & pts & P); [lra|]. fold c d in P. destruct (fcc_path (10 * 2)) as (path' & pts' & P'); [lra|].
  rewrite <- scale_diag in P'. fold c in P'.
  destruct (crystal_scaled 10 225 "c" "F" t_F c fcc_points) as (E1 & E2). rewrite <- E1, <- E2 in P'.
  assert (O : obtain_data None (mmul (tr t_F) c) one_atom (Data d) = Ok d) by apply crystal_obtain.
  assert (O' : obtain_data None (mscale 10 (mmul (tr t_F) c)) one_atom (Data (scale_data 10 (symprec d) d)) = Ok (scale_data 10 (symprec d) d)).
  { change (symprec d) with (/ 100000). unfold d. rewrite E1, E2. apply crystal_obtain. }
  assert (U : any_unit None) by (intros lib; discriminate).
  exists (mmul (tr t_F) c), d, path, pts. split; [rewrite det_mmul, det_tr; unfold c; intros Z; apply Rmult_integral in Z; destruct Z as [Z|Z]; [revert Z; det_num|revert Z; apply inverse_diag; lra]|].
  split; [exact U|]. split; [exact O|]. split; [exact O'|]. split; [exact P|].
  destruct (C69_units None 10 (symprec d) (mmul (tr t_F) c) one_atom d ltac:(lra) U O O') as (_ & _ & _ & K). destruct (K "HPKOT" true eq_refl) as (_ & K2 & _).
  change (/ 100000) with (symprec d) in P'. pose proof (K2 _ _ P P') as X. unfold scale_points in X; cbn [fst snd] in X. rewrite <- X. exact P'.
Qed.
