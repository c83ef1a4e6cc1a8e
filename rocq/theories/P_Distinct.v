(* P_Distinct.v : property C44 (different names denote different points). *)
From Verif Require Import Base M_Strings M_Dict M_Numerical M_Geometry M_Cell M_Niggli M_Atoms T_Tables T_Points M_Spglib M_Conventional
  M_Primitive M_Variation M_Kpoints M_Path F_Geometry F_Voronoi F_Strings F_Atoms F_Kpoints S_Crystal F_Conventional F_Primitive
  P_Conventional P_Monoclinic P_Primitive P_Variation P_Symbol P_Path S_Zone F_Zone F_ZoneTables F_ZoneTables2 F_ZoneCells P_Zone F_Distinct.
Open Scope string_scope.
Open Scope list_scope.
Open Scope R_scope.

(* What is claimed of a crystal: no two of the names returned by get_path_and_points (of the points in the
   table, i.e. with time reversal) stand for the same point, in Cartesian or in relative coordinates. *)
Definition distinct_points (spglib : option spglib_module) (cell : mat) (atoms : atoms_dict) (arg : data_arg) (cv : string) : Prop :=
  forall relative path pts, get_path_and_points spglib cell atoms arg cv true relative = Ok (path, pts) ->
    forall n1 n2 k, In (n1, k) pts -> In (n2, k) pts -> n1 = n2.

Lemma different_names (pts : dict vec) n1 n2 k : different pts -> In (n1, k) pts -> In (n2, k) pts -> n1 = n2.
Proof.
  unfold different. induction pts as [|[n v] pts IH]; cbn [map snd]; intros D; [intros []|]. inversion D as [|? ? N D']; subst.
  assert (X : forall m, In (m, v) pts -> False) by (intros m I; apply N; apply (in_map snd) in I; exact I).
  intros [E|I1] [E'|I2].
  - congruence.
  - injection E as -> ->. destruct (X _ I2).
  - injection E' as -> ->. destruct (X _ I1).
  - auto.
Qed.
Lemma different_map (f : vec -> vec) (pts : dict vec) : (forall u v, f u = f v -> u = v) -> different pts -> different (map (fun kv => (fst kv, f (snd kv))) pts).
Proof.
  intros F. unfold different. rewrite map_map. cbn [snd]. rewrite <- (map_map snd f). induction (map snd pts) as [|v l IH]; [constructor|]. intros D. inversion D as [|? ? N D']; subst.
  cbn [map]. constructor; auto. intros I. apply in_map_iff in I. destruct I as (u & E & I). apply F in E. subst. auto.
Qed.
(* the claim, from the same for the table of fractional coordinates *)
Lemma distinct_lift spglib cell atoms arg cv d : obtain_data spglib cell atoms arg = Ok d ->
  (forall pts0 path0, In (lower cv) ["sc"; "hpkot"] -> table_of spglib cell atoms d cv = Ok (pts0, path0) -> different pts0) ->
  distinct_points spglib cell atoms arg cv.
Proof.
  intros D H rel path pts P n1 n2 k.
  destruct (path_inv _ _ _ _ _ _ _ _ _ P) as (d' & pts0 & path0 & pc & pa & r & pts1 & inv & D' & T & _ & _ & R & Q & _ & E & CV).
  assert (d' = d) by congruence. subst d'. specialize (H _ _ CV T).
  assert (pts = pts1) by (destruct (negb inv); cbn [negb andb] in E; tauto). subst pts1. apply different_names.
  assert (DR : det r <> 0).
  { pose proof (reciprocal_det _ _ R) as X. intros Z. rewrite Z, Rmult_0_l in X. pose proof PI_RGT_0 as PP.
    assert (0 < 2 * PI * (2 * PI) * (2 * PI)) by (apply Rmult_lt_0_compat; [apply Rmult_lt_0_compat|]; lra). lra. }
  unfold place_points in Q. apply bind_ok in Q. destruct Q as (b & B & Q). injection Q as <-. cbv zeta.
  apply (different_map (fun v => if rel then vmat (vmat v r) b else vmat v r)); auto. intros u v EQ. destruct rel.
  - apply bind_ok in B. destruct B as (rc & _ & B). apply minv_ok in B. destruct B as (DB & ->).
    apply (vmat_cancel r); auto. apply (f_equal (fun x => vmat x rc)) in EQ. rewrite !vmat_mmul, !minv_l, !mmul_id_r in EQ by auto. exact EQ.
  - apply (vmat_cancel r); auto.
Qed.

(* ---- HPKOT ---- *)
Ltac distinct_h D L GC s p :=
  apply (distinct_lift _ _ _ _ _ _ D);
  let pts0 := fresh "pts0" in let path0 := fresh "path0" in let CV := fresh "CV" in let T := fresh "T" in intros pts0 path0 CV T;
  match type of GC with get_conventional ?sp ?ce ?at_ ?cv _ = Ok (?cc, ?ca) =>
    let G := fresh "G" in assert (G : get_conventional sp ce at_ (lower cv) (Data _) = Ok (cc, ca)) by
      (rewrite <- conventional_lower by auto; unfold get_conventional in GC |- *; rewrite D in GC; rewrite (obtain_again _ _ _ _ _ D); exact GC);
    destruct (hpkot_table_inv _ _ _ _ _ _ _ _ _ L G T) as (s & p & S & TP & P & HP) end.
Ltac same_params p := match goal with P : get_params ?c = Ok ?p', Q : get_params ?c = Ok p |- _ => assert (p' = p) by congruence; subst p'; clear P end.
Theorem C44_hpkot_cubic_hexagonal : forall spglib cell atoms arg cv d cc ca,
  obtain_data spglib cell atoms arg = Ok d -> lower cv = "hpkot" ->
  In (crystal_family d, centring_type d) [("c", "P"); ("c", "F"); ("c", "I"); ("h", "P")] ->
  get_conventional spglib cell atoms cv arg = Ok (cc, ca) -> distinct_points spglib cell atoms arg cv.
Proof.
  intros spglib cell atoms arg cv d cc ca D L LT GC. distinct_h D L GC s p.
  assert (LT' : exists f c, crystal_family d = f /\ centring_type d = c /\ In (f, c) [("c", "P"); ("c", "F"); ("c", "I"); ("h", "P")]) by eauto.
  destruct LT' as (f & c & F & C & LT'). cbn [In] in LT'.
  destruct LT' as [E|[E|[E|[E|[]]]]]; injection E as <- <-; table_points D F C P S TP;
  first [apply diff_H69; assumption|apply diff_H70; assumption|apply diff_H71; assumption|apply diff_H84; assumption].
Qed.
Print Assumptions C44_hpkot_cubic_hexagonal.
Theorem C44_hpkot_tetragonal : forall spglib cell atoms arg cv d cc ca p,
  obtain_data spglib cell atoms arg = Ok d -> lower cv = "hpkot" -> crystal_family d = "t" -> In (centring_type d) ["P"; "I"] ->
  get_conventional spglib cell atoms cv arg = Ok (cc, ca) -> get_params cc = Ok p ->
  (centring_type d = "I" -> pa p <> pc p) -> distinct_points spglib cell atoms arg cv.
Proof.
  intros spglib cell atoms arg cv d cc ca p D L F C GC PP NE. distinct_h D L GC s p0. same_params p. destruct (params_pos _ _ PP) as (PA & PB & PC).
  destruct C as [C|[C|[]]]; symmetry in C.
  - table_points D F C PP S TP. apply diff_H72; assumption.
  - specialize (NE C). destruct (C40_tetragonal _ _ _ _ _ _ _ (obtain_again _ _ _ _ _ D) F C HP) as (X & Y). rewrite S in X, Y. clear S.
    unfold lattice_type in TP. rewrite F, C in TP. destruct (Rle_dec (pc p) (pa p)) as [LE|GT].
    + specialize (X LE). injection X as ->. points_of TP PP. apply (diff_H73 (pa p) (pc p)); auto; lra.
    + specialize (Y GT). injection Y as ->. points_of TP PP. apply (diff_H74 (pa p) (pc p)); auto; lra.
Qed.
Print Assumptions C44_hpkot_tetragonal.
(* the largest of three numbers is larger than both others *)
Definition one_largest (a b c : R) : Prop := (b < a /\ c < a) \/ (a < b /\ c < b) \/ (a < c /\ b < c).
Definition no_sum (a b c : R) : Prop := a <> b + c /\ b <> a + c /\ c <> a + b.
Theorem C44_hpkot_orthorhombic : forall spglib cell atoms arg cv d cc ca p,
  obtain_data spglib cell atoms arg = Ok d -> lower cv = "hpkot" -> crystal_family d = "o" -> In (centring_type d) ["P"; "F"; "I"; "C"; "A"] ->
  get_conventional spglib cell atoms cv arg = Ok (cc, ca) -> get_params cc = Ok p ->
  (centring_type d = "F" -> no_sum (inverse_square (pa p)) (inverse_square (pb p)) (inverse_square (pc p))) ->
  (centring_type d = "I" -> one_largest (pa p) (pb p) (pc p)) ->
  (centring_type d = "C" -> pa p <> pb p) -> (centring_type d = "A" -> pb p <> pc p) ->
  distinct_points spglib cell atoms arg cv.
Proof.
  intros spglib cell atoms arg cv d cc ca p D L F C GC PP NF NI NC NA. distinct_h D L GC s p0. same_params p. destruct (params_pos _ _ PP) as (PA & PB & PC).
  destruct C as [C|[C|[C|[C|[C|[]]]]]]; symmetry in C.
  - table_points D F C PP S TP. apply diff_H75; assumption.
  - destruct (NF C) as (N1 & N2 & N3). destruct (C40_orthorhombic_F _ _ _ _ _ _ _ (obtain_again _ _ _ _ _ D) F C HP) as (X & Y & Z & _). rewrite S in X, Y, Z. unfold inverse_square in *.
    unfold lattice_type in TP. rewrite F, C in TP.
    destruct (Rlt_dec (/ (pb p * pb p) + / (pc p * pc p)) (/ (pa p * pa p))) as [Q1|Q1];
      [|destruct (Rlt_dec (/ (pa p * pa p) + / (pb p * pb p)) (/ (pc p * pc p))) as [Q2|Q2]].
    + apply X in Q1 as E. injection E as ->. points_of TP PP. apply (diff_H76 (pa p) (pb p) (pc p)); auto.
    + apply Y in Q2 as E. injection E as ->. points_of TP PP. apply (diff_H77 (pa p) (pb p) (pc p)); auto.
    + assert (E : Ok s = Ok "oF3") by (apply Z; lra). injection E as ->. points_of TP PP. apply (diff_H78 (pa p) (pb p) (pc p)); auto; lra.
  - specialize (NI C). destruct (C40_orthorhombic_I _ _ _ _ _ _ _ (obtain_again _ _ _ _ _ D) F C HP) as (X & Y & Z & W). rewrite S in X, Y, Z, W.
    unfold lattice_type in TP. rewrite F, C in TP.
    destruct W as [W|[W|W]]; injection W as ->; points_of TP PP.
    + destruct (proj1 X eq_refl) as (Q1 & Q2). apply (diff_H79 (pa p) (pb p) (pc p)); auto; destruct NI as [NI|[NI|NI]]; lra.
    + destruct (proj1 Y eq_refl) as (Q1 & Q2). apply (diff_H80 (pa p) (pb p) (pc p)); auto; destruct NI as [NI|[NI|NI]]; lra.
    + destruct (proj1 Z eq_refl) as (Q1 & Q2). apply (diff_H81 (pa p) (pb p) (pc p)); auto; destruct NI as [NI|[NI|NI]]; lra.
  - specialize (NC C). destruct (C40_orthorhombic_faces _ _ _ _ _ _ _ (obtain_again _ _ _ _ _ D) F HP) as (X & _). destruct (X C) as (Y & Z). rewrite S in Y, Z.
    unfold lattice_type in TP. rewrite F, C in TP. destruct (Rle_dec (pa p) (pb p)) as [LE|GT].
    + specialize (Y LE). injection Y as ->. points_of TP PP. apply (diff_H82 (pa p) (pb p) (pc p) "oC"); auto; [intros _; lra|discriminate].
    + specialize (Z GT). injection Z as ->. points_of TP PP. apply (diff_H83 (pa p) (pb p) (pc p) "oC"); auto; [intros _; lra|discriminate].
  - specialize (NA C). destruct (C40_orthorhombic_faces _ _ _ _ _ _ _ (obtain_again _ _ _ _ _ D) F HP) as (_ & X). destruct (X C) as (Y & Z). rewrite S in Y, Z.
    unfold lattice_type in TP. rewrite F, C in TP. destruct (Rle_dec (pb p) (pc p)) as [LE|GT].
    + specialize (Y LE). injection Y as ->. points_of TP PP. apply (diff_H82 (pa p) (pb p) (pc p) "oA"); auto; [discriminate|intros _; lra].
    + specialize (Z GT). injection Z as ->. points_of TP PP. apply (diff_H83 (pa p) (pb p) (pc p) "oA"); auto; [discriminate|intros _; lra].
Qed.
Print Assumptions C44_hpkot_orthorhombic.
Theorem C44_hpkot_rhombohedral : forall spglib cell atoms arg cv d cc ca p,
  obtain_data spglib cell atoms arg = Ok d -> lower cv = "hpkot" -> crystal_family d = "h" -> centring_type d = "R" ->
  get_conventional spglib cell atoms cv arg = Ok (cc, ca) -> get_params cc = Ok p ->
  3 * (pa p * pa p) <> 2 * (pc p * pc p) -> distinct_points spglib cell atoms arg cv.
Proof.
  intros spglib cell atoms arg cv d cc ca p D L F C GC PP NE. distinct_h D L GC s p0. same_params p. destruct (params_pos _ _ PP) as (PA & PB & PC).
  destruct (C40_rhombohedral _ _ _ _ _ _ _ (obtain_again _ _ _ _ _ D) F C HP) as (X & Y). rewrite S in X, Y. clear S.
  unfold lattice_type in TP. rewrite F, C in TP. destruct (Rle_dec (3 * (pa p * pa p)) (2 * (pc p * pc p))) as [LE|GT].
  - specialize (X LE). injection X as ->. points_of TP PP. apply (diff_H85 (pa p) (pc p)); auto; lra.
  - specialize (Y GT). injection Y as ->. points_of TP PP. apply (diff_H86 (pa p) (pc p)); auto; lra.
Qed.
Print Assumptions C44_hpkot_rhombohedral.
Lemma sin_deg_ge0 x : 0 <= x <= 180 -> 0 <= sin (x * TORADIANS).
Proof. intros R. destruct (rad_range _ R). apply sin_ge_0; auto. Qed.
Lemma params_ranges c p : get_params c = Ok p -> 0 <= palpha p <= 180 /\ 0 <= pbeta p <= 180 /\ 0 <= pgamma p <= 180.
Proof.
  intros P. pose proof P as P'. apply get_params_inv in P'. destruct P' as (B & _).
  destruct (get_params_ok c) as (q' & P4 & (_ & _ & _ & RA & RB & RC & _)); try apply B. assert (q' = p) by congruence. subst q'. auto.
Qed.
(* the oblique angle is obtuse and the two vectors are the shortest ones along the rows of the plane *)
Theorem C44_hpkot_monoclinic : forall spglib cell atoms arg cv d cc ca p,
  obtain_data spglib cell atoms arg = Ok d -> lower cv = "hpkot" -> crystal_family d = "m" ->
  get_conventional spglib cell atoms cv arg = Ok (cc, ca) -> get_params cc = Ok p ->
  let q := - cos (pbeta p * TORADIANS) in let s := sin (pbeta p * TORADIANS) in
  0 < q -> pa p * q < pc p ->
  (centring_type d = "P" /\ pc p * q < pa p) \/
  (centring_type d = "C" /\ 0 < s /\ 2 * (pc p * q) < pa p /\ pb p <> pa p * s /\ pa p * q / pc p + pa p * s * (pa p * s) / (pb p * pb p) <> 1) ->
  distinct_points spglib cell atoms arg cv.
Proof.
  intros spglib cell atoms arg cv d cc ca p D L F GC PP q s Q U C. distinct_h D L GC sy p0. same_params p. destruct (params_pos _ _ PP) as (PA & PB & PC).
  destruct C as [(C & CQ)|(C & SP & CQ & N1 & N2)].
  - table_points D F C PP S TP. apply (diff_H87 (pa p) (pc p) (pbeta p)); auto.
  - destruct (C40_monoclinic _ _ _ _ _ _ _ (obtain_again _ _ _ _ _ D) F C HP) as (X & Y & Z). rewrite S in X, Y, Z.
    unfold lattice_type in TP. rewrite F, C in TP. fold s in X, Y, Z.
    set (x := - (pa p * cos (pbeta p * TORADIANS)) / pc p + pa p * s * (pa p * s) / (pb p * pb p)) in *.
    assert (EX : pa p * q / pc p + pa p * s * (pa p * s) / (pb p * pb p) = x) by (unfold x, q; field; lra).
    rewrite EX in N2.
    destruct (Rle_dec (pb p) (pa p * s)) as [Q1|Q1]; [|destruct (Rle_dec x 1) as [Q2|Q2]].
    + apply X in Q1 as E. injection E as ->. points_of TP PP. apply (diff_H88 (pa p) (pb p) (pc p) (pbeta p)); auto; fold q s; lra.
    + assert (E : Ok sy = Ok "mC2") by (apply Y; lra). injection E as ->. points_of TP PP. apply (diff_H89 (pa p) (pb p) (pc p) (pbeta p)); auto; fold q s; lra.
    + assert (E : Ok sy = Ok "mC3") by (apply Z; lra). injection E as ->. points_of TP PP. apply (diff_H90 (pa p) (pb p) (pc p) (pbeta p)); auto; fold q s; lra.
Qed.
Print Assumptions C44_hpkot_monoclinic.
Theorem C44_hpkot_triclinic : forall spglib cell atoms arg cv d cc ca,
  obtain_data spglib cell atoms arg = Ok d -> lower cv = "hpkot" -> crystal_family d = "a" -> centring_type d = "P" ->
  get_conventional spglib cell atoms cv arg = Ok (cc, ca) -> hpkot_get_extended_bl_symbol spglib cell atoms arg = Ok "aP3" ->
  distinct_points spglib cell atoms arg cv.
Proof.
  intros spglib cell atoms arg cv d cc ca D L F C GC SY. distinct_h D L GC s p.
  assert (E : s = "aP3") by (unfold hpkot_get_extended_bl_symbol in S, SY; rewrite D in SY; rewrite (obtain_again _ _ _ _ _ D) in S; congruence).
  subst s. points_of TP P. apply diff_H92. assumption.
Qed.
Print Assumptions C44_hpkot_triclinic.
(* aP2: the point Z is the point GAMMA, whatever the crystal *)
Theorem C44_hpkot_aP2_refuted : forall spglib cell atoms arg cv path pts,
  lower cv = "hpkot" -> hpkot_get_extended_bl_symbol spglib cell atoms arg = Ok "aP2" ->
  get_path_and_points spglib cell atoms arg cv true false = Ok (path, pts) -> ~ distinct_points spglib cell atoms arg cv.
Proof.
  intros spglib cell atoms arg cv path pts L SY P X. destruct (C55_hpkot_aP2_Z _ _ _ _ _ _ _ _ _ L SY P) as (G & Z & _).
  discriminate (X _ _ _ P _ _ _ G Z).
Qed.
Print Assumptions C44_hpkot_aP2_refuted.

(* ---- SC ---- *)
Ltac distinct_s D L GC s p :=
  apply (distinct_lift _ _ _ _ _ _ D);
  let pts0 := fresh "pts0" in let path0 := fresh "path0" in let CV := fresh "CV" in let T := fresh "T" in intros pts0 path0 CV T;
  match type of GC with get_conventional ?sp ?ce ?at_ ?cv _ = Ok (?cc, ?ca) =>
    let G := fresh "G" in assert (G : get_conventional sp ce at_ (lower cv) (Data _) = Ok (cc, ca)) by
      (rewrite <- conventional_lower by auto; unfold get_conventional in GC |- *; rewrite D in GC; rewrite (obtain_again _ _ _ _ _ D); exact GC);
    destruct (sc_table_inv _ _ _ _ _ _ _ _ _ L G T) as (s & p & S & TP & P & HP) end.
Theorem C44_sc_cubic_hexagonal : forall spglib cell atoms arg cv d cc ca,
  obtain_data spglib cell atoms arg = Ok d -> lower cv = "sc" ->
  In (crystal_family d, centring_type d) [("c", "P"); ("c", "F"); ("c", "I"); ("h", "P")] ->
  get_conventional spglib cell atoms cv arg = Ok (cc, ca) -> distinct_points spglib cell atoms arg cv.
Proof.
  intros spglib cell atoms arg cv d cc ca D L LT GC. distinct_s D L GC s p.
  assert (LT' : exists f c, crystal_family d = f /\ centring_type d = c /\ In (f, c) [("c", "P"); ("c", "F"); ("c", "I"); ("h", "P")]) by eauto.
  destruct LT' as (f & c & F & C & LT'). cbn [In] in LT'.
  destruct LT' as [E|[E|[E|[E|[]]]]]; injection E as <- <-; sc_points_of TP P F C;
  first [apply diff_S2; assumption|apply diff_S3; assumption|apply diff_S4; assumption|apply diff_S13; assumption].
Qed.
Print Assumptions C44_sc_cubic_hexagonal.
Theorem C44_sc_tetragonal : forall spglib cell atoms arg cv d cc ca,
  obtain_data spglib cell atoms arg = Ok d -> lower cv = "sc" -> crystal_family d = "t" -> In (centring_type d) ["P"; "I"] ->
  get_conventional spglib cell atoms cv arg = Ok (cc, ca) -> distinct_points spglib cell atoms arg cv.
Proof.
  intros spglib cell atoms arg cv d cc ca D L F C GC. distinct_s D L GC s p. destruct (params_pos _ _ P) as (PA & PB & PC).
  destruct C as [C|[C|[]]]; symmetry in C; sc_points_of TP P F C; [apply diff_S5; assumption|].
  destruct (C39_tetragonal _ _ _ _ _ _ _ (obtain_again _ _ _ _ _ D) F C HP) as (X & Y & _). rewrite S in X, Y.
  destruct (is_variation s "BCT1") eqn:V1; [|destruct (is_variation s "BCT2") eqn:V2; [|discriminate]].
  - apply is_variation_true in V1. subst s. apply (diff_S6 (pa p) (pc p)); auto. apply X. reflexivity.
  - apply is_variation_true in V2. subst s. apply (diff_S7 (pa p) (pc p)); auto. apply Y. reflexivity.
Qed.
Print Assumptions C44_sc_tetragonal.
(* ORCF3 means that 1/a^2 = 1/b^2 + 1/c^2 up to symprec; at equality the points T and X1 coincide (C44_sc_ORCF3_refuted) *)
Theorem C44_sc_orthorhombic : forall spglib cell atoms arg cv d cc ca p,
  obtain_data spglib cell atoms arg = Ok d -> lower cv = "sc" -> crystal_family d = "o" -> In (centring_type d) ["P"; "F"; "I"; "C"; "A"] ->
  get_conventional spglib cell atoms cv arg = Ok (cc, ca) -> get_params cc = Ok p -> 0 <= symprec d ->
  (sc_get_variation spglib cell atoms arg = Ok (Some "ORCF3") -> inverse_square (pb p) + inverse_square (pc p) < inverse_square (pa p)) ->
  distinct_points spglib cell atoms arg cv.
Proof.
  intros spglib cell atoms arg cv d cc ca p D L F C GC PP SP MID. distinct_s D L GC s p0. same_params p. destruct (params_pos _ _ PP) as (PA & PB & PC).
  assert (SV : sc_get_variation spglib cell atoms arg = Ok s).
  { unfold sc_get_variation in *. rewrite D. rewrite (obtain_again _ _ _ _ _ D) in S. exact S. }
  rewrite SV in MID. destruct (params_norms _ _ PP) as (N1 & N2 & N3). unfold inverse_square in MID.
  pose proof (C33_ordered _ _ _ _ _ _ _ _ D F L GC) as (O1 & O2 & _). rewrite N1, N2, N3 in O1. rewrite N1, N2 in O2.
  destruct C as [C|[C|[C|[C|[C|[]]]]]]; symmetry in C; sc_points_of TP PP F C.
  - apply diff_S8; assumption.
  - destruct (C39_orthorhombic _ _ _ _ _ _ _ D F C HP SP) as (X & Y & Z & _ & OO). rewrite SV in X, Y, Z. unfold inverse_square in *.
    pose proof (inv_sq_le _ _ PA (Rlt_le _ _ (proj1 OO))). pose proof (inv_sq_le _ _ PB (Rlt_le _ _ (proj2 OO))).
    pose proof (inv_sq_pos _ PA). pose proof (inv_sq_pos _ PB). pose proof (inv_sq_pos _ PC).
    destruct (one_of s ["ORCF1"; "ORCF3"]) eqn:V1; [|destruct (is_variation s "ORCF2") eqn:V2; [|discriminate]].
    + apply (diff_S9 (pa p) (pb p) (pc p)); auto. apply one_of_true in V1. destruct V1 as (v & [<-|[<-|[]]] & ->); [|apply MID; reflexivity]. destruct (proj1 X eq_refl). lra.
    + apply is_variation_true in V2. subst s. destruct (proj1 Y eq_refl). apply (diff_S10 (pa p) (pb p) (pc p)); auto; lra.
  - assert (OO : pa p < pb p < pc p) by (apply O1; rewrite C; cbn; auto). apply (diff_S11 (pa p) (pb p) (pc p)); auto; lra.
  - assert (OO : pa p < pb p) by (apply O2; unfold one_face; rewrite C; cbn; auto). apply (diff_S12 (pa p) (pb p)); auto.
  - assert (OO : pa p < pb p) by (apply O2; unfold one_face; rewrite C; cbn; auto). apply (diff_S12 (pa p) (pb p)); auto.
Qed.
Print Assumptions C44_sc_orthorhombic.
Lemma cos_deg_strict x : 0 <= x <= 180 -> (90 < x -> cos (x * TORADIANS) < 0) /\ (x < 90 -> 0 < cos (x * TORADIANS)).
Proof.
  intros R. assert (E : forall y, y * TORADIANS = y / 90 * (PI / 2)) by (intros; unfold TORADIANS; field). pose proof PI_RGT_0. split; intros H0.
  - apply cos_lt_0; rewrite E; nra.
  - apply cos_gt_0; rewrite E; nra.
Qed.
Theorem C44_sc_rhombohedral : forall spglib cell atoms arg cv d cc ca,
  obtain_data spglib cell atoms arg = Ok d -> lower cv = "sc" -> crystal_family d = "h" -> centring_type d = "R" ->
  get_conventional spglib cell atoms cv arg = Ok (cc, ca) -> 0 <= spglib_angle_or_default d -> distinct_points spglib cell atoms arg cv.
Proof.
  intros spglib cell atoms arg cv d cc ca D L F C GC SP. distinct_s D L GC s p. sc_points_of TP P F C.
  destruct (C39_rhombohedral _ _ _ _ _ _ _ (obtain_again _ _ _ _ _ D) F C HP SP) as (V1 & V2 & _). rewrite S in V1, V2.
  destruct (params_ranges _ _ P) as (RA & _). destruct (cos_deg_strict _ RA) as (C1 & C2).
  destruct (is_variation s "RHL1") eqn:W1; [|destruct (is_variation s "RHL2") eqn:W2; [|discriminate]].
  - apply is_variation_true in W1. subst s. assert (LT := proj1 V1 eq_refl). apply (diff_S14 (palpha p)); auto. apply C2. lra.
  - apply is_variation_true in W2. subst s. assert (LT := proj1 V2 eq_refl). apply (diff_S15 (palpha p)); auto.
    assert (CN : cos (palpha p * TORADIANS) < 0) by (apply C1; lra).
    unfold sc_table_15 in TP. cbv zeta in TP. destruct (Reqb_spec (cos (palpha p * TORADIANS / 2)) 0) as [Z|NZ]; [discriminate|]. clear TP.
    replace (palpha p * TORADIANS) with (2 * (palpha p * TORADIANS / 2)) in CN by field. rewrite cos_2a in CN.
    revert CN NZ. generalize (palpha p * TORADIANS / 2). intros x CN NZ. unfold sq, tan.
    replace (sin x / cos x * (sin x / cos x)) with (sin x * sin x / (cos x * cos x)) by (field; auto).
    assert (0 < cos x * cos x) by nra. apply (Rmult_lt_reg_r (cos x * cos x)); auto. unfold Rdiv. rewrite (Rmult_assoc (sin x * sin x)), Rinv_l by lra. lra.
Qed.
Print Assumptions C44_sc_rhombohedral.
(* MCLC2 and MCLC4 are chosen within a tolerance; at equality some of the points coincide *)
Theorem C44_sc_monoclinic : forall spglib cell atoms arg cv d cc ca p v,
  obtain_data spglib cell atoms arg = Ok d -> lower cv = "sc" -> crystal_family d = "m" ->
  get_conventional spglib cell atoms cv arg = Ok (cc, ca) -> monoclinic_a cc ->
  0 <= symprec d -> 0 <= spglib_angle_or_default d -> get_params cc = Ok p ->
  sc_get_variation spglib cell atoms arg = Ok (Some v) ->
  let q := cos (palpha p * TORADIANS) in let s := sin (palpha p * TORADIANS) in
  0 < q -> pb p * q < pc p ->
  (centring_type d = "P" /\ pc p * q < pb p) \/
  (centring_type d = "C" /\ 2 * (pc p * q) < pb p /\
   (v = "MCLC2" -> pa p < pb p * s) /\ (v = "MCLC4" -> pb p / pc p * q + pb p * pb p / (pa p * pa p) * (s * s) < 1)) ->
  distinct_points spglib cell atoms arg cv.
Proof.
  intros spglib cell atoms arg cv d cc ca p v D L F GC SH SP SA PP SV q s Q U C.
  intros rel path pts PATH.
  (* the primitive cell and its reciprocal, as in C55_sc_monoclinic *)
  destruct (path_inv _ _ _ _ _ _ _ _ _ PATH) as (d' & pts0' & path0' & pc' & pa' & r & _ & _ & D' & _ & _ & GP' & R & _ & _ & _ & CV0).
  assert (d' = d) by congruence. subst d'. revert rel path pts PATH. change (distinct_points spglib cell atoms arg cv).
  assert (CV' : In (lower cv) ["hpkot"; "sc"]) by (cbn in *; tauto).
  destruct (get_primitive_inv _ _ _ _ _ _ _ _ (obtain_again _ _ _ _ _ D) CV' GP') as (cc1 & ca1 & m & ? & ? & ? & ? & ? & ? & CC & M & PCE & _).
  subst pc'. assert (EQ := same_conventional _ _ _ _ _ _ _ _ _ _ D CV0 GC CC). subst cc1.
  distinct_s D L GC v' p0. same_params p.
  assert (v' = Some v).
  { unfold sc_get_variation in S, SV. rewrite D in SV. rewrite (obtain_again _ _ _ _ _ D) in S. congruence. }
  subst v'. assert (DC := det_prim _ _ _ R). destruct (monoclinic_a_gram _ _ PP DC SH) as (B & PA & PB & PC & PS & PQ & D2 & D3 & D23).
  fold q s in B, PS, PQ, D23.
  destruct C as [(C & T1)|(C & T1 & C3 & C4)]; matrix_of M L F C; sc_points_of TP PP F C.
  - apply (diff_S16 (pb p) (pc p) (palpha p)); auto.
  - assert (HA : pa p <> 0) by lra. assert (HB : pb p <> 0) by lra. assert (HC : pc p <> 0) by lra. assert (HS : s <> 0) by lra.
    pose proof K_pos as KP.
    destruct (met_SmC cc r _ _ _ _ _ HA HB HC HS PQ B R) as (M1 & _ & _).
    assert (GP : get_primitive spglib cell atoms "SC" (Data d) = Ok (mmul (tr t_mC) cc, pa')).
    { unfold t_mC. rewrite <- GP'. unfold get_primitive, primitive_structure. rewrite L. reflexivity. }
    assert (DOT : dot (row1 r) (row2 r) = 4 * (PI * PI) * (/ (pb p * pb p * (s * s)) - / (pa p * pa p))).
    { specialize (M1 (V3 1 0 0) (V3 0 1 0)). unfold terms_S17mC in M1. cbn [form] in M1. unfold lin in M1. cbn [vx vy vz zx zy zz] in M1.
      replace (vmat (V3 1 0 0) r) with (row1 r) in M1 by (destruct r as [[] [] []]; vunfold; f_equal; ring).
      replace (vmat (V3 0 1 0) r) with (row2 r) in M1 by (destruct r as [[] [] []]; vunfold; f_equal; ring).
      rewrite M1. ring. }
    assert (QR : exists qq, get_params r = Ok qq).
    { unfold sc_get_variation in S. rewrite (obtain_again _ _ _ _ _ D) in S. cbn [bind] in S. cbv zeta in S. unfold lattice_type in S. rewrite F, C in S.
      match type of S with context [if mem ?a ?b then _ else _] => change (mem a b) with true in S end. cbv iota in S.
      destruct HP as ((ca2 & HG) & _). rewrite HG in S. cbn [bind] in S. rewrite PP in S. cbn [bind] in S.
      cbn [String.append String.eqb Ascii.eqb Bool.eqb] in S. rewrite GP in S. cbn [bind] in S.
      unfold t_mC in S. match type of S with context [get_reciprocal ?x] => replace (get_reciprocal x) with (Ok r) in S by (symmetry; exact R) end. cbn [bind] in S.
      apply bind_ok in S. destruct S as (qq & QQ & _). exists qq. exact QQ. }
    destruct QR as (qq & QQ).
    destruct (C39_monoclinic _ _ _ _ _ _ _ _ _ _ _ (obtain_again _ _ _ _ _ D) F C HP GP R QQ SA SP) as (V1 & V2 & V3 & V4 & V5).
    rewrite S in V1, V2, V3, V4, V5. fold q s in V3, V4, V5.
    pose proof QQ as Q'. apply get_params_inv in Q'. destruct Q' as (BG & _).
    destruct (get_params_ok r) as (q' & P4 & (_ & _ & _ & _ & _ & RC & _ & _ & ZZ)); try apply BG. assert (q' = qq) by congruence. subst q'.
    destruct (params_pos _ _ QQ) as (P1 & P2 & P3). destruct (cos_deg_strict _ RC) as (CN & CP).
    assert (0 < pa qq * pb qq) by (apply Rmult_lt_0_compat; auto).
    rewrite ZZ in DOT. set (A := / (pa p * pa p)) in *. set (W := / (pb p * pb p * (s * s))) in *.
    assert (PBS : 0 < pb p * s) by (apply Rmult_lt_0_compat; auto).
    assert (WA : W = / (pb p * s * (pb p * s))) by (unfold W; field; lra).
    assert (LT1 : 90 < pgamma qq -> pa p < pb p * s).
    { intros J. specialize (CN J). assert (W < A) by nra. destruct (Rlt_dec (pa p) (pb p * s)) as [|N]; auto. exfalso.
      assert (J2 : pb p * s <= pa p) by lra. pose proof (inv_sq_le _ _ PBS J2). fold A in H1. lra. }
    assert (LT2 : pgamma qq < 90 -> pb p * s < pa p).
    { intros J. specialize (CP J). assert (A < W) by nra. destruct (Rlt_dec (pb p * s) (pa p)) as [|N]; auto. exfalso.
      assert (J2 : pa p <= pb p * s) by lra. pose proof (inv_sq_le _ _ PA J2). fold A in H1. lra. }
    destruct (one_of (Some v) ["MCLC1"; "MCLC2"]) eqn:W1; [|destruct (one_of (Some v) ["MCLC3"; "MCLC4"]) eqn:W2; [|destruct (is_variation (Some v) "MCLC5") eqn:W3; [|discriminate]]].
    + apply (diff_S17 (pa p) (pb p) (pc p) (palpha p)); auto; fold q s.
      apply one_of_true in W1. destruct W1 as (v' & [<-|[<-|[]]] & EV); injection EV as ->; [|auto]. apply LT1. pose proof (proj1 V1 eq_refl). lra.
    + apply (diff_S18 (pa p) (pb p) (pc p) (palpha p)); auto; fold q s.
      apply one_of_true in W2. destruct W2 as (v' & [<-|[<-|[]]] & EV); injection EV as ->; [|auto]. destruct (proj1 V3 eq_refl). lra.
    + apply is_variation_true in W3. injection W3 as ->. destruct (proj1 V5 eq_refl) as (K1 & K2).
      apply (diff_S19 (pa p) (pb p) (pc p) (palpha p)); auto; fold q s; [apply LT2|]; lra.
Qed.
Print Assumptions C44_sc_monoclinic.
Theorem C44_sc_triclinic : forall spglib cell atoms arg cv d cc ca,
  obtain_data spglib cell atoms arg = Ok d -> lower cv = "sc" -> crystal_family d = "a" -> centring_type d = "P" ->
  get_conventional spglib cell atoms cv arg = Ok (cc, ca) -> distinct_points spglib cell atoms arg cv.
Proof.
  intros spglib cell atoms arg cv d cc ca D L F C GC. distinct_s D L GC s p. sc_points_of TP P F C.
  destruct (one_of s ["TRI1a"; "TRI2a"]); [apply diff_S20; assumption|]. destruct (one_of s ["TRI1b"; "TRI2b"]); [apply diff_S21; assumption|discriminate].
Qed.
Print Assumptions C44_sc_triclinic.
