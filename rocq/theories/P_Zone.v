(* P_Zone.v : property C55 (the recommended points are in the first Brillouin zone). *)
From Verif Require Import Base M_Strings M_Dict M_Numerical M_Geometry M_Cell M_Niggli M_Atoms T_Tables T_Points M_Spglib M_Conventional
  M_Primitive M_Variation M_Kpoints M_Path F_Geometry F_Voronoi F_Strings F_Atoms F_Kpoints S_Crystal F_Conventional F_Primitive
  P_Conventional P_Monoclinic P_Primitive P_Variation P_Symbol P_Path S_Zone F_Zone F_ZoneTables F_ZoneTables2 F_ZoneCells.
Open Scope string_scope.
Open Scope list_scope.
Open Scope R_scope.

(* What is claimed of a crystal: every point returned (in Cartesian coordinates), except those named
   in exempt and their images under inversion, is in the first Brillouin zone of the primitive cell returned by get_primitive, and
   every one except GAMMA is on its surface. *)
Definition points_in_zone (spglib : option spglib_module) (cell : mat) (atoms : atoms_dict) (arg : data_arg) (cv : string)
  (exempt : list string) : Prop :=
  forall tr path pts pc pa r, get_path_and_points spglib cell atoms arg cv tr false = Ok (path, pts) ->
    get_primitive spglib cell atoms cv arg = Ok (pc, pa) -> get_reciprocal pc = Ok r ->
    forall name k, In (name, k) pts -> ~ In name (exempt ++ map (fun s => String.append s "_P") exempt) -> in_zone r k /\ (name <> "GAMMA" -> on_surface r k).

Lemma zone_neg r k : in_zone r k -> in_zone r (vneg k).
Proof.
  intros H n. specialize (H (Zv (- zx n) (- zy n) (- zz n))).
  replace (dist2 (vneg k) vzero) with (dist2 k vzero) by (unfold dist2; destruct k; vring).
  replace (dist2 (vneg k) (vmat (ofZv n) r)) with (dist2 k (vmat (ofZv (Zv (- zx n) (- zy n) (- zz n))) r)); auto.
  unfold ofZv. cbn [zx zy zz]. rewrite !opp_IZR. unfold dist2. generalize (IZR (zx n)), (IZR (zy n)), (IZR (zz n)). intros. destruct k, r as [[] [] []]. vunfold. ring.
Qed.
Lemma surface_neg r k : on_surface r k -> on_surface r (vneg k).
Proof.
  intros (H & n & N & E). split; [apply zone_neg; auto|]. exists (Zv (- zx n) (- zy n) (- zz n)). split.
  { intros Z. apply N. destruct n as [x y z]. cbn [zx zy zz] in Z. injection Z as Z1 Z2 Z3. f_equal; lia. }
  replace (dist2 (vneg k) vzero) with (dist2 k vzero) by (unfold dist2; destruct k; vring). rewrite E.
  unfold ofZv. cbn [zx zy zz]. rewrite !opp_IZR. unfold dist2. generalize (IZR (zx n)), (IZR (zy n)), (IZR (zz n)). intros. destruct k, r as [[] [] []]. vunfold. ring.
Qed.
Lemma in_setitem {A} k (v : A) d kv : In kv (setitem k v d) -> kv = (k, v) \/ In kv d.
Proof.
  induction d as [|[k' v'] d IH]; cbn [setitem]; [intros [<-|[]]; auto|].
  destruct (String.eqb_spec k k') as [<-|]; intros [<-|H]; cbn; auto. apply IH in H. tauto.
Qed.
Lemma in_extend pts kv : In kv (extend_points pts) ->
  In kv pts \/ exists k v, In (k, v) pts /\ k <> "GAMMA" /\ kv = (String.append k "_P", vneg v).
Proof.
  unfold extend_points.
  assert (X : forall l acc, In kv (fold_left (fun d kv => if String.eqb (fst kv) "GAMMA" then d else setitem (String.append (fst kv) "_P") (vneg (snd kv)) d) l acc) ->
    In kv acc \/ exists k v, In (k, v) l /\ k <> "GAMMA" /\ kv = (String.append k "_P", vneg v)).
  { induction l as [|[k v] l IH]; intros acc H; cbn [fold_left] in H; [auto|]. apply IH in H.
    destruct H as [H|(k' & v' & I & N & E)]; [|right; exists k', v'; cbn; auto]. cbn [fst snd] in H.
    destruct (String.eqb_spec k "GAMMA"); [auto|]. apply in_setitem in H. destruct H as [->|H]; [right; exists k, v; cbn; auto|auto]. }
  apply X.
Qed.
Lemma conventional_lower spglib cell atoms cv arg : In (lower cv) ["sc"; "hpkot"] ->
  get_conventional spglib cell atoms cv arg = get_conventional spglib cell atoms (lower cv) arg.
Proof.
  intros L. unfold get_conventional, conventional_structure. replace (lower (lower cv)) with (lower cv) by (destruct L as [<-|[<-|[]]]; reflexivity). reflexivity.
Qed.
Lemma primitive_again spglib cell atoms cv arg d : obtain_data spglib cell atoms arg = Ok d ->
  get_primitive spglib cell atoms cv arg = get_primitive spglib cell atoms cv (Data d).
Proof. intros D. unfold get_primitive. rewrite D, (obtain_again _ _ _ _ _ D). reflexivity. Qed.

(* the claim, from the same for the table of fractional coordinates *)
Lemma zone_lift spglib cell atoms arg cv d exempt : obtain_data spglib cell atoms arg = Ok d ->
  (forall cc ca pts0 path0 m r, In (lower cv) ["sc"; "hpkot"] -> get_conventional spglib cell atoms (lower cv) (Data d) = Ok (cc, ca) ->
    table_of spglib cell atoms d cv = Ok (pts0, path0) -> getitem (lattice_type d) (conversion_table (lower cv)) = Ok m ->
    get_reciprocal (mmul (tr m) cc) = Ok r -> (exists pa, get_primitive spglib cell atoms cv (Data d) = Ok (mmul (tr m) cc, pa)) ->
    Forall (fun kv => ~ In (fst kv) exempt -> zone_ok r kv) pts0) ->
  points_in_zone spglib cell atoms arg cv exempt.
Proof.
  intros D H time path pts pc pa r P GP R name k I N.
  destruct (path_inv _ _ _ _ _ _ _ _ _ P) as (d' & pts0 & path0 & pc' & pa' & r' & pts1 & inv & D' & T & K & GP' & R' & Q & _ & E & CV).
  assert (d' = d) by congruence. subst d'. rewrite (primitive_again _ _ _ _ _ _ D) in GP. assert (pc' = pc) by congruence. subst pc'.
  assert (r' = r) by congruence. subst r'. clear GP' R'.
  assert (CV' : In (lower cv) ["hpkot"; "sc"]) by (cbn in *; tauto).
  destruct (get_primitive_inv _ _ _ _ _ _ _ _ (obtain_again _ _ _ _ _ D) CV' GP) as (cc & ca & m & v & cps & qs & tv & ps & ts & C & M & PC & _).
  subst pc. specialize (H cc ca pts0 path0 m r CV C T M R (ex_intro _ _ GP)).
  assert (Q' : pts1 = map (fun kv => (fst kv, vmat (snd kv) r)) pts0).
  { unfold place_points in Q. cbn [bind] in Q. injection Q as <-. reflexivity. }
  assert (OK : forall n x, In (n, x) pts1 -> ~ In n exempt -> in_zone r x /\ (n <> "GAMMA" -> on_surface r x)).
  { intros n x J NE. rewrite Q' in J. apply in_map_iff in J. destruct J as ([n0 x0] & J & J0). cbn [fst snd] in J. injection J as <- <-.
    rewrite Forall_forall in H. exact (H _ J0 NE). }
  assert (N1 : ~ In name exempt) by (intros J; apply N; apply in_or_app; auto).
  destruct (negb inv && negb time).
  - destruct E as (_ & ->). apply in_extend in I. destruct I as [I|(k0 & v0 & I & NG & E)]; [apply OK; auto|]. injection E as -> ->.
    assert (N2 : ~ In k0 exempt) by (intros J; apply N; apply in_or_app; right; apply (in_map (fun s => String.append s "_P")); auto).
    destruct (OK _ _ I N2) as (Z & S). split; [apply zone_neg; auto|intros _; apply surface_neg; auto].
  - destruct E as (_ & ->). apply OK; auto.
Qed.

(* ---- HPKOT ---- *)
Lemma hpkot_table_inv spglib cell atoms d cv cc ca pts0 path0 : lower cv = "hpkot" ->
  get_conventional spglib cell atoms (lower cv) (Data d) = Ok (cc, ca) -> table_of spglib cell atoms d cv = Ok (pts0, path0) ->
  exists s p, hpkot_get_extended_bl_symbol spglib cell atoms (Data d) = Ok s /\ hpkot_get_points cc (lattice_type d) s = Ok pts0 /\
    get_params cc = Ok p /\ hpkot_params spglib cell atoms d cc p.
Proof.
  intros L G T. unfold table_of in T. rewrite L in T. change (String.eqb "hpkot" "sc") with false in T. cbv iota in T.
  rewrite conventional_lower in T by (rewrite L; cbn; auto). rewrite G in T. cbn [bind] in T.
  apply bind_ok in T. destruct T as (s & S & T). apply bind_ok in T. destruct T as (p0 & P & T). apply bind_ok in T. destruct T as (k & _ & T). injection T as -> ->.
  pose proof P as P'. unfold hpkot_get_points in P'. apply bind_ok in P'. destruct P' as (p & P' & _).
  exists s, p. repeat split; auto. exists ca. rewrite conventional_lower by (cbn; auto). change (lower "HPKOT") with "hpkot". rewrite <- L. exact G.
Qed.
Lemma inv_sq_pos x : 0 < x -> 0 < / (x * x).
Proof. intros H. apply Rinv_0_lt_compat. nra. Qed.
Lemma inv_sq_le x y : 0 < x -> x <= y -> / (y * y) <= / (x * x).
Proof. intros H L. apply Rinv_le_contravar; nra. Qed.
Ltac nonneg_list := repeat (apply Forall_cons; [cbn [snd]; try lra|]); try apply Forall_nil.
Ltac points_of H P := unfold hpkot_get_points in H; rewrite P in H; cbn [bind] in H; cbv zeta in H; cbn [mem existsb String.eqb Ascii.eqb Bool.eqb orb] in H.
Lemma K_pos : 0 < 4 * (PI * PI).
Proof. pose proof PI_RGT_0. assert (0 < PI * PI) by (apply Rmult_lt_0_compat; auto). lra. Qed.
Lemma box_of c p : get_params c = Ok p -> right_angles c -> gram c = box (pa p) (pb p) (pc p) /\ 0 < pa p /\ 0 < pb p /\ 0 < pc p.
Proof.
  intros P (X & Y & Z). apply get_params_inv in P. destruct P as (B & ->). destruct (big_pos c B) as (P1 & P2 & P3).
  rewrite gram_dots, X, Y, Z. unfold box, params_val. cbn [pa pb pc]. rewrite !norm_sqr. auto.
Qed.
Lemma params_norms c p : get_params c = Ok p -> norm (row1 c) = pa p /\ norm (row2 c) = pb p /\ norm (row3 c) = pc p.
Proof. intros P. apply get_params_inv in P. destruct P as (B & ->). auto. Qed.
Ltac table_points D F C P S T :=
  unfold hpkot_get_extended_bl_symbol in S; rewrite (obtain_again _ _ _ _ _ D) in S; cbn [bind] in S; cbv zeta in S; unfold lattice_type in S, T; rewrite F, C in S, T;
  cbn [mem existsb String.eqb Ascii.eqb Bool.eqb orb String.append] in S, T;
  repeat match type of S with (if ?b then _ else _) = Ok _ => destruct b end; try discriminate S; injection S as <-; points_of T P.
Ltac matrix_of M L F C := unfold lattice_type in M; rewrite F, C, L in M;
  cbv [getitem lookup String.eqb Ascii.eqb Bool.eqb String.append HPKOT_CONVENTIONAL_TO_PRIMITIVE SC_CONVENTIONAL_TO_PRIMITIVE conversion_table] in M; injection M as <-.
Ltac zone_of_table L D := apply (zone_lift _ _ _ _ _ _ _ D); intros cc0 ca0 pts0 path0 m r CV G T M R PR;
  apply (Forall_impl _ (fun kv (H : zone_ok r kv) _ => H)).


Lemma same_conventional spglib cell atoms arg cv d cc ca cc0 ca0 : obtain_data spglib cell atoms arg = Ok d -> In (lower cv) ["sc"; "hpkot"] ->
  get_conventional spglib cell atoms cv arg = Ok (cc, ca) -> get_conventional spglib cell atoms (lower cv) (Data d) = Ok (cc0, ca0) -> cc0 = cc.
Proof.
  intros D L GC G. rewrite conventional_lower in GC by auto. unfold get_conventional in GC, G. rewrite D in GC. rewrite (obtain_again _ _ _ _ _ D) in G. congruence.
Qed.
Ltac zone_start_h D L GC s p :=
  zone_of_table L D;
  match goal with T : table_of _ _ _ _ _ = Ok (?pts0, ?path0), G : get_conventional _ _ _ (lower _) (Data _) = Ok (?cc0, _), CV : In (lower _) _ |- _ =>
    assert (EQ := same_conventional _ _ _ _ _ _ _ _ _ _ D CV GC G); subst cc0; destruct (hpkot_table_inv _ _ _ _ _ _ _ _ _ L G T) as (s & p & S & TP & P & HP) end;
  pose proof K_pos as KP.
Ltac centrings C := repeat match type of C with _ \/ _ => destruct C as [C|C] | False => destruct C end; try (symmetry in C).

Theorem C55_hpkot_cubic : forall spglib cell atoms arg cv d cc ca,
  obtain_data spglib cell atoms arg = Ok d -> lower cv = "hpkot" -> crystal_family d = "c" -> In (centring_type d) ["P"; "F"; "I"] ->
  get_conventional spglib cell atoms cv arg = Ok (cc, ca) -> cubic cc ->
  points_in_zone spglib cell atoms arg cv [].
Proof.
  intros spglib cell atoms arg cv d cc ca D L F C GC SH. zone_start_h D L GC s p.
  destruct SH as ((RA & E1) & E2). destruct (box_of _ _ P RA) as (B & PA & PB & PC). destruct (params_norms _ _ P) as (N1 & N2 & N3).
  assert (pb p = pa p) by congruence. assert (pc p = pa p) by congruence. rewrite H, H0 in *. pose proof (inv_sq_pos _ PA).
  assert (HA : pa p <> 0) by lra.
  destruct C as [C|[C|[C|[]]]]; symmetry in C; matrix_of M L F C; table_points D F C P S TP;
  first
  [ apply (zone_H69cP r _ (pa p) _ KP PA); auto; [unfold terms_H69cP; nonneg_list|apply (met_P cc r _ _ _ HA HA HA B R)]
  | apply (zone_H70cF r _ (pa p) _ KP PA); auto; [unfold terms_H70cF; nonneg_list|apply (met_F cc r _ _ _ HA HA HA B R)]
  | apply (zone_H71cI r _ (pa p) _ KP PA); auto; [unfold terms_H71cI; nonneg_list|apply (met_cI cc r _ HA B R)] ].
Qed.
Print Assumptions C55_hpkot_cubic.
Theorem C55_hpkot_tetragonal : forall spglib cell atoms arg cv d cc ca,
  obtain_data spglib cell atoms arg = Ok d -> lower cv = "hpkot" -> crystal_family d = "t" -> In (centring_type d) ["P"; "I"] ->
  get_conventional spglib cell atoms cv arg = Ok (cc, ca) -> tetragonal cc ->
  points_in_zone spglib cell atoms arg cv [].
Proof.
  intros spglib cell atoms arg cv d cc ca D L F C GC SH. zone_start_h D L GC s p.
  destruct SH as (RA & E1). destruct (box_of _ _ P RA) as (B & PA & PB & PC). destruct (params_norms _ _ P) as (N1 & N2 & N3).
  assert (H : pb p = pa p) by congruence. rewrite H in *. pose proof (inv_sq_pos _ PA). pose proof (inv_sq_pos _ PC).
  assert (HA : pa p <> 0) by lra. assert (HC : pc p <> 0) by lra.
  destruct C as [C|[C|[]]]; symmetry in C; matrix_of M L F C.
  - table_points D F C P S TP. apply (zone_H72tP r _ (pa p) (pc p) _ KP PA PC); auto; [unfold terms_H69cP; nonneg_list|apply (met_P cc r _ _ _ HA HA HC B R)].
  - destruct (C40_tetragonal _ _ _ _ _ _ _ (obtain_again _ _ _ _ _ D) F C HP) as (X & Y). rewrite S in X, Y. clear S.
    unfold lattice_type in TP. rewrite F, C in TP. destruct (Rle_dec (pc p) (pa p)) as [LE|GT].
    + specialize (X LE). injection X as ->. points_of TP P. pose proof (inv_sq_le _ _ PC LE).
      apply (zone_H73tI r _ (pa p) (pc p) _ KP PA PC); auto; [unfold terms_H73tI; nonneg_list|apply (met_tI cc r _ _ HA HC B R)].
    + specialize (Y GT). injection Y as ->. points_of TP P. assert (LE : pa p <= pc p) by lra. pose proof (inv_sq_le _ _ PA LE).
      apply (zone_H74tI r _ (pa p) (pc p) _ KP PA PC); auto; [unfold terms_H74tI; nonneg_list|apply (met_I cc r _ _ _ HA HA HC B R)].
Qed.
Print Assumptions C55_hpkot_tetragonal.
(* face-centred: the middle length must not be the shortest one (see C55_hpkot_oF_refuted) *)
Theorem C55_hpkot_orthorhombic : forall spglib cell atoms arg cv d cc ca,
  obtain_data spglib cell atoms arg = Ok d -> lower cv = "hpkot" -> crystal_family d = "o" -> In (centring_type d) ["P"; "F"; "I"; "C"; "A"] ->
  get_conventional spglib cell atoms cv arg = Ok (cc, ca) -> right_angles cc ->
  (centring_type d = "F" -> inverse_square (norm (row2 cc)) <= inverse_square (norm (row1 cc)) + inverse_square (norm (row3 cc))) ->
  points_in_zone spglib cell atoms arg cv [].
Proof.
  intros spglib cell atoms arg cv d cc ca D L F C GC RA MID. zone_start_h D L GC s p.
  destruct (box_of _ _ P RA) as (B & PA & PB & PC). destruct (params_norms _ _ P) as (N1 & N2 & N3). rewrite N1, N2, N3 in MID. unfold inverse_square in MID.
  pose proof (inv_sq_pos _ PA). pose proof (inv_sq_pos _ PB). pose proof (inv_sq_pos _ PC).
  assert (HA : pa p <> 0) by lra. assert (HB : pb p <> 0) by lra. assert (HC : pc p <> 0) by lra.
  destruct C as [C|[C|[C|[C|[C|[]]]]]]; symmetry in C; matrix_of M L F C.
  - table_points D F C P S TP. apply (zone_H75oP r _ (pa p) (pb p) (pc p) _ KP PA PB PC); auto; [unfold terms_H69cP; nonneg_list|apply (met_P cc r _ _ _ HA HB HC B R)].
  - destruct (C40_orthorhombic_F _ _ _ _ _ _ _ (obtain_again _ _ _ _ _ D) F C HP) as (X & Y & Z & _). rewrite S in X, Y, Z. unfold inverse_square in *.
    specialize (MID C). destruct (met_F cc r _ _ _ HA HB HC B R) as (M1 & M2 & M3).
    unfold lattice_type in TP. rewrite F, C in TP.
    destruct (Rlt_dec (/ (pb p * pb p) + / (pc p * pc p)) (/ (pa p * pa p))) as [Q1|Q1];
      [|destruct (Rlt_dec (/ (pa p * pa p) + / (pb p * pb p)) (/ (pc p * pc p))) as [Q2|Q2]].
    + apply X in Q1 as E. injection E as ->. points_of TP P. apply (zone_H76oF r _ (pa p) (pb p) (pc p) _ KP PA PB PC); auto. unfold terms_H76oF; nonneg_list.
    + apply Y in Q2 as E. injection E as ->. points_of TP P. apply (zone_H77oF r _ (pa p) (pb p) (pc p) _ KP PA PB PC); auto. unfold terms_H77oF; nonneg_list.
    + assert (E : Ok s = Ok "oF3") by (apply Z; lra). injection E as ->. points_of TP P. apply (zone_H78oF r _ (pa p) (pb p) (pc p) _ KP PA PB PC); auto. unfold terms_H70cF; nonneg_list.
  - destruct (C40_orthorhombic_I _ _ _ _ _ _ _ (obtain_again _ _ _ _ _ D) F C HP) as (X & Y & Z & W). rewrite S in X, Y, Z, W.
    destruct (met_I cc r _ _ _ HA HB HC B R) as (M1 & M2 & M3). unfold lattice_type in TP. rewrite F, C in TP.
    destruct W as [W|[W|W]]; injection W as ->; points_of TP P.
    + destruct (proj1 X eq_refl) as (Q1 & Q2). pose proof (inv_sq_le _ _ PA Q1). pose proof (inv_sq_le _ _ PB Q2).
      apply (zone_H79oI r _ (pa p) (pb p) (pc p) _ KP PA PB PC); auto. unfold terms_H74tI; nonneg_list.
    + destruct (proj1 Y eq_refl) as (Q1 & Q2). pose proof (inv_sq_le _ _ PB Q1). pose proof (inv_sq_le _ _ PC (Rlt_le _ _ Q2)).
      apply (zone_H80oI r _ (pa p) (pb p) (pc p) _ KP PA PB PC); auto. unfold terms_H80oI; nonneg_list.
    + destruct (proj1 Z eq_refl) as (Q1 & Q2). pose proof (inv_sq_le _ _ PA (Rlt_le _ _ Q1)). pose proof (inv_sq_le _ _ PC (Rlt_le _ _ Q2)).
      apply (zone_H81oI r _ (pa p) (pb p) (pc p) _ KP PA PB PC); auto. unfold terms_H81oI; nonneg_list.
  - destruct (C40_orthorhombic_faces _ _ _ _ _ _ _ (obtain_again _ _ _ _ _ D) F HP) as (X & _). destruct (X C) as (Y & Z). rewrite S in Y, Z.
    destruct (met_C cc r _ _ _ HA HB HC B R) as (M1 & M2). unfold lattice_type in TP. rewrite F, C in TP.
    destruct (Rle_dec (pa p) (pb p)) as [LE|GT].
    + specialize (Y LE). injection Y as ->. points_of TP P. pose proof (inv_sq_le _ _ PA LE).
      apply (zone_H82oC r _ (pa p) (pb p) (pc p) _ KP PA PB PC); auto. unfold terms_H82oC; nonneg_list.
    + specialize (Z GT). injection Z as ->. points_of TP P. assert (LE : pb p <= pa p) by lra. pose proof (inv_sq_le _ _ PB LE).
      apply (zone_H83oC r _ (pa p) (pb p) (pc p) _ KP PA PB PC); auto. unfold terms_H83oC; nonneg_list.
  - destruct (C40_orthorhombic_faces _ _ _ _ _ _ _ (obtain_again _ _ _ _ _ D) F HP) as (_ & X). destruct (X C) as (Y & Z). rewrite S in Y, Z.
    destruct (met_A cc r _ _ _ HA HB HC B R) as (M1 & M2). unfold lattice_type in TP. rewrite F, C in TP.
    destruct (Rle_dec (pb p) (pc p)) as [LE|GT].
    + specialize (Y LE). injection Y as ->. points_of TP P. pose proof (inv_sq_le _ _ PB LE).
      apply (zone_H82oA r _ (pa p) (pb p) (pc p) _ KP PA PB PC); auto. unfold terms_H82oA; nonneg_list.
    + specialize (Z GT). injection Z as ->. points_of TP P. assert (LE : pc p <= pb p) by lra. pose proof (inv_sq_le _ _ PC LE).
      apply (zone_H83oA r _ (pa p) (pb p) (pc p) _ KP PA PB PC); auto. unfold terms_H83oA; nonneg_list.
Qed.
Print Assumptions C55_hpkot_orthorhombic.
Lemma hexagonal_gram c p : get_params c = Ok p -> hexagonal c ->
  gram c = M3 (V3 (pa p * pa p) (- (pa p * pa p) / 2) 0) (V3 (- (pa p * pa p) / 2) (pa p * pa p) 0) (V3 0 0 (pc p * pc p)) /\ 0 < pa p /\ 0 < pc p.
Proof.
  intros P (X & Y & N & Z). destruct (params_norms _ _ P) as (N1 & N2 & N3). destruct (params_pos _ _ P) as (P1 & P2 & P3).
  assert (D1 : dot (row1 c) (row1 c) = pa p * pa p) by (rewrite <- norm_sqr, N1; auto).
  assert (D2 : dot (row2 c) (row2 c) = pa p * pa p) by (rewrite <- norm_sqr, <- N, N1; auto).
  assert (D3 : dot (row3 c) (row3 c) = pc p * pc p) by (rewrite <- norm_sqr, N3; auto).
  rewrite gram_dots, X, Y, D1, D2, D3. replace (dot (row1 c) (row2 c)) with (- (pa p * pa p) / 2) by lra. auto.
Qed.
Theorem C55_hpkot_hexagonal : forall spglib cell atoms arg cv d cc ca,
  obtain_data spglib cell atoms arg = Ok d -> lower cv = "hpkot" -> crystal_family d = "h" -> centring_type d = "P" ->
  get_conventional spglib cell atoms cv arg = Ok (cc, ca) -> hexagonal cc ->
  points_in_zone spglib cell atoms arg cv [].
Proof.
  intros spglib cell atoms arg cv d cc ca D L F C GC SH. zone_start_h D L GC s p.
  destruct (hexagonal_gram _ _ P SH) as (B & PA & PC). pose proof (inv_sq_pos _ PC).
  assert (HA : pa p <> 0) by lra. assert (HC : pc p <> 0) by lra.
  assert (0 < 2 / (3 * (pa p * pa p))) by (apply Rdiv_lt_0_compat; [lra|nra]).
  matrix_of M L F C; table_points D F C P S TP;
  (apply (zone_H84hP r _ (pa p) (pc p) _ KP PA PC); auto; [unfold terms_H84hP; nonneg_list|apply (met_hP cc r _ _ HA HC B R)]).
Qed.
Print Assumptions C55_hpkot_hexagonal.
(* rhombohedral crystals: the cell that get_primitive returns is 3/2 times too long (C37), so the lattice of its
   reciprocal cell is 2/3 of that of the crystal; the points are scaled alike *)
Definition scaled (x : R) (ts : terms) : terms := map (fun lp => (fst lp, x * snd lp)) ts.
Lemma metric_scaled r K x ts : metric r K (scaled x ts) -> metric r (K * x) ts.
Proof.
  intros H u v. rewrite H, Rmult_assoc. f_equal. clear. induction ts as [|[l p] ts IH]; cbn [scaled map form fst snd]; [ring|]. fold (scaled x ts). rewrite IH. ring.
Qed.
Definition t_R : mat := mk 1 (-1/2) (-1/2) (1/2) (1/2) (-1) (1/2) (1/2) (1/2).
Lemma met_R cc r a c : a <> 0 -> c <> 0 -> gram cc = M3 (V3 (a * a) (- (a * a) / 2) 0) (V3 (- (a * a) / 2) (a * a) 0) (V3 0 0 (c * c)) ->
  get_reciprocal (mmul (tr t_R) cc) = Ok r ->
  metric r (4 * (PI * PI) * (4 / 9)) (terms_H85hR (2 / (3 * (a * a))) (/ (c * c))) /\
  metric r (4 * (PI * PI) * (4 / 9)) (terms_H86hR (2 / (3 * (a * a))) (/ (c * c))).
Proof.
  intros Ha Hc G R. unfold t_R in *. split; apply metric_scaled; unfold terms_H85hR, terms_H86hR, scaled; cbn [map fst snd]; metric_of R G.
Qed.
Theorem C55_hpkot_rhombohedral : forall spglib cell atoms arg cv d cc ca,
  obtain_data spglib cell atoms arg = Ok d -> lower cv = "hpkot" -> crystal_family d = "h" -> centring_type d = "R" ->
  get_conventional spglib cell atoms cv arg = Ok (cc, ca) -> hexagonal cc ->
  points_in_zone spglib cell atoms arg cv [].
Proof.
  intros spglib cell atoms arg cv d cc ca D L F C GC SH. zone_start_h D L GC s p.
  destruct (hexagonal_gram _ _ P SH) as (B & PA & PC). pose proof (inv_sq_pos _ PC).
  assert (HA : pa p <> 0) by lra. assert (HC : pc p <> 0) by lra.
  assert (0 < 2 / (3 * (pa p * pa p))) by (apply Rdiv_lt_0_compat; [lra|nra]).
  assert (KP' : 0 < 4 * (PI * PI) * (4 / 9)) by lra.
  destruct (C40_rhombohedral _ _ _ _ _ _ _ (obtain_again _ _ _ _ _ D) F C HP) as (V1 & V2). rewrite S in V1, V2.
  matrix_of M L F C. destruct (met_R cc r _ _ HA HC B R) as (M1 & M2).
  assert (I1 : / (pc p * pc p) = 2 / (2 * (pc p * pc p))) by (field; auto).
  unfold lattice_type in TP. rewrite F, C in TP.
  destruct (Rle_dec (3 * (pa p * pa p)) (2 * (pc p * pc p))) as [LE|GT].
  - specialize (V1 LE). assert (s = "hR1") by congruence. subst s. points_of TP P.
    assert (2 / (2 * (pc p * pc p)) <= 2 / (3 * (pa p * pa p))) by (apply Rmult_le_compat_l; [lra|]; apply Rinv_le_contravar; nra).
    apply (zone_H85hR r _ (pa p) (pc p) _ KP' PA PC); auto. unfold terms_H85hR; nonneg_list.
  - specialize (V2 GT). assert (s = "hR2") by congruence. subst s. points_of TP P.
    assert (2 / (3 * (pa p * pa p)) <= 2 / (2 * (pc p * pc p))) by (apply Rmult_le_compat_l; [lra|]; apply Rinv_le_contravar; nra).
    apply (zone_H86hR r _ (pa p) (pc p) _ KP' PA PC); auto. unfold terms_H86hR; nonneg_list.
Qed.
Print Assumptions C55_hpkot_rhombohedral.
(* a monoclinic cell: q and s are the cosine and the sine of the oblique angle *)
Lemma monoclinic_b_gram c p : get_params c = Ok p -> det c <> 0 -> monoclinic_b c ->
  let a := pa p in let b := pb p in let e := pc p in let q := cos (pbeta p * TORADIANS) in let s := sin (pbeta p * TORADIANS) in
  gram c = M3 (V3 (a * a) 0 (a * e * q)) (V3 0 (b * b) 0) (V3 (a * e * q) 0 (e * e)) /\ 0 < a /\ 0 < b /\ 0 < e /\ 0 < s /\ q * q = 1 - s * s /\
  dot (row1 c) (row1 c) = a * a /\ dot (row3 c) (row3 c) = e * e /\ dot (row1 c) (row3 c) = a * e * q.
Proof.
  intros P D (X & Y & _) a b e q s. pose proof P as P'. apply get_params_inv in P'. destruct P' as (B & E).
  destruct (get_params_ok c) as (p' & P1 & (NA & NB & NC & _ & RB & _ & _ & Z & _)); try apply B. assert (p' = p) by congruence. subst p'. clear E B P1.
  destruct (params_pos _ _ P) as (P1 & P2 & P3).
  fold a b e q in NA, NB, NC, Z. assert (PY := sin2_cos2 (pbeta p * TORADIANS)). unfold Rsqr in PY. fold q s in PY.
  assert (D1 : dot (row1 c) (row1 c) = a * a) by (rewrite <- norm_sqr, NA; auto).
  assert (D2 : dot (row2 c) (row2 c) = b * b) by (rewrite <- norm_sqr, NB; auto).
  assert (D3 : dot (row3 c) (row3 c) = e * e) by (rewrite <- norm_sqr, NC; auto).
  rewrite gram_dots, D1, D2, D3, X, Y, Z.
  assert (S0 : 0 <= s) by (destruct (rad_range _ RB); apply sin_ge_0; auto).
  assert (S : s <> 0).
  { intros S. apply D. assert (DD : det c * det c = 0).
    { rewrite gram_det. cbv zeta. rewrite D1, D2, D3, X, Y, Z. rewrite S in PY. assert (q * q = 1) by lra.
      replace (a * a * (b * b) * (e * e) + 2 * 0 * (a * e * q) * 0 - a * a * 0 * 0 - b * b * (a * e * q) * (a * e * q) - e * e * 0 * 0)
        with ((a * a) * (b * b) * (e * e) * (1 - q * q)) by ring. rewrite H. ring. }
    apply Rmult_integral in DD. tauto. }
  repeat split; auto; lra.
Qed.
Lemma det_prim m c r : get_reciprocal (mmul (tr m) c) = Ok r -> det c <> 0.
Proof.
  intros R E. rewrite get_reciprocal_err in R; [discriminate|]. rewrite det_mmul, E. ring.
Qed.
(* the weights, over a common denominator *)
Lemma mono_weights a e q s : 0 < a -> 0 < e -> 0 < s ->
  exists i, 0 < i /\ / (a * a * (s * s)) = e * e * i /\ / (e * e * (s * s)) = a * a * i /\ - q / (a * e * (s * s)) = - (a * e * q) * i.
Proof.
  intros A E S. exists (/ (a * a * (e * e) * (s * s))). split; [|repeat split; field; lra].
  apply Rinv_0_lt_compat. assert (0 < a * a) by nra. assert (0 < e * e) by nra. assert (0 < s * s) by nra.
  apply Rmult_lt_0_compat; auto. apply Rmult_lt_0_compat; auto.
Qed.
Theorem C55_hpkot_monoclinic : forall spglib cell atoms arg cv d cc ca,
  obtain_data spglib cell atoms arg = Ok d -> lower cv = "hpkot" -> crystal_family d = "m" ->
  get_conventional spglib cell atoms cv arg = Ok (cc, ca) -> monoclinic_b cc ->
  let aa := dot (row1 cc) (row1 cc) in let ee := dot (row3 cc) (row3 cc) in let ae := dot (row1 cc) (row3 cc) in
  (centring_type d = "P" /\ - ae <= aa /\ - ae <= ee) \/ (centring_type d = "C" /\ - 2 * ae <= aa /\ - ae <= ee) ->
  points_in_zone spglib cell atoms arg cv [].
Proof.
  intros spglib cell atoms arg cv d cc ca D L F GC SH aa ee ae C. zone_start_h D L GC sy p.
  assert (DC := det_prim _ _ _ R). destruct (monoclinic_b_gram _ _ P DC SH) as (B & PA & PB & PC & PS & PQ & D1 & D3 & D13).
  unfold aa, ee, ae in C. rewrite D1, D3, D13 in C. destruct SH as (_ & _ & NEG). rewrite D13 in NEG. clear aa ee ae.
  assert (HA : pa p <> 0) by lra. assert (HB : pb p <> 0) by lra. assert (HC : pc p <> 0) by lra. assert (HS : sin (pbeta p * TORADIANS) <> 0) by lra.
  destruct (mono_weights _ _ (cos (pbeta p * TORADIANS)) _ PA PC PS) as (i & I & E1 & E2 & E3). pose proof (inv_sq_pos _ PB) as IB.
  assert (NE : 0 <= - (pa p * pc p * cos (pbeta p * TORADIANS)) * i) by (apply Rmult_le_pos; lra).
  assert (W : forall x y, x <= y -> x * i <= y * i) by (intros; apply Rmult_le_compat_r; lra).
  destruct C as [(C & C1 & C2)|(C & C1 & C2)]; matrix_of M L F C; apply W in C1; apply W in C2.
  - table_points D F C P S TP. apply (zone_H87mP r _ (pa p) (pb p) (pc p) (pbeta p) _ KP PA PB PC HS); auto.
    + rewrite E1, E2, E3. unfold terms_H87mP; nonneg_list.
    + apply (met_mP cc r _ _ _ _ _ HA HB HC HS PQ B R).
  - destruct (met_mC cc r _ _ _ _ _ HA HB HC HS PQ B R) as (M1 & M2 & M3).
    destruct (C40_monoclinic _ _ _ _ _ _ _ (obtain_again _ _ _ _ _ D) F C HP) as (X & Y & Z). rewrite S in X, Y, Z.
    unfold lattice_type in TP. rewrite F, C in TP.
    set (q := cos (pbeta p * TORADIANS)) in *. set (s := sin (pbeta p * TORADIANS)) in *.
    assert (PAS : 0 < pa p * s) by (apply Rmult_lt_0_compat; auto).
    assert (IA : / (pa p * s * (pa p * s)) = pc p * pc p * i) by (rewrite <- E1; field; lra).
    set (x := - (pa p * q) / pc p + pa p * s * (pa p * s) / (pb p * pb p)) in *.
    assert (EX : x * (pc p * pc p * i) = - (pa p * pc p * q) * i + / (pb p * pb p)) by (rewrite <- E1, <- E3; unfold x; field; lra).
    assert (CI : 0 < pc p * pc p * i) by (apply Rmult_lt_0_compat; nra).
    destruct (Rle_dec (pb p) (pa p * s)) as [Q1|Q1]; [|destruct (Rle_dec x 1) as [Q2|Q2]].
    + apply X in Q1 as E. injection E as ->. points_of TP P. pose proof (inv_sq_le _ _ PB Q1) as Q. rewrite IA in Q.
      apply (zone_H88mC r _ (pa p) (pb p) (pc p) (pbeta p) _ KP PA PB PC HS); auto; fold q s.
      rewrite E1, E2, E3. unfold terms_H88mC; nonneg_list.
    + assert (E : Ok sy = Ok "mC2") by (apply Y; lra). injection E as ->. points_of TP P.
      assert (Q : x * (pc p * pc p * i) <= 1 * (pc p * pc p * i)) by (apply Rmult_le_compat_r; lra). rewrite EX in Q.
      apply (zone_H89mC r _ (pa p) (pb p) (pc p) (pbeta p) _ KP PA PB PC HS); auto; fold q s.
      rewrite E1, E2, E3. unfold terms_H89mC; nonneg_list.
    + assert (E : Ok sy = Ok "mC3") by (apply Z; lra). injection E as ->. points_of TP P.
      assert (Q : 1 * (pc p * pc p * i) <= x * (pc p * pc p * i)) by (apply Rmult_le_compat_r; lra). rewrite EX in Q.
      assert (Q1' : pa p * s <= pb p) by lra. pose proof (inv_sq_le _ _ PAS Q1') as Q3. rewrite IA in Q3.
      apply (zone_H90mC r _ (pa p) (pb p) (pc p) (pbeta p) _ KP PA PB PC HS); auto; fold q s.
      rewrite E1, E2, E3. unfold terms_H90mC; nonneg_list.
Qed.
Print Assumptions C55_hpkot_monoclinic.

(* ---- triclinic ---- *)
Lemma cos_deg_sign x : 0 <= x <= 180 -> (90 <= x -> cos (x * TORADIANS) <= 0) /\ (x <= 90 -> 0 <= cos (x * TORADIANS)).
Proof.
  intros R. assert (E : forall y, y * TORADIANS = y / 90 * (PI / 2)) by (intros; unfold TORADIANS; field). pose proof PI_RGT_0. split; intros H0.
  - apply cos_le_0; rewrite E; nra.
  - apply cos_ge_0; rewrite E; nra.
Qed.
Lemma dot_signs r q : get_params r = Ok q ->
  (90 <= palpha q -> dot (row2 r) (row3 r) <= 0) /\ (90 <= pbeta q -> dot (row1 r) (row3 r) <= 0) /\ (90 <= pgamma q -> dot (row1 r) (row2 r) <= 0) /\
  (palpha q <= 90 -> 0 <= dot (row2 r) (row3 r)) /\ (pbeta q <= 90 -> 0 <= dot (row1 r) (row3 r)) /\ (pgamma q <= 90 -> 0 <= dot (row1 r) (row2 r)).
Proof.
  intros P. destruct (params_pos _ _ P) as (P1 & P2 & P3). pose proof P as P'. apply get_params_inv in P'. destruct P' as (B & _).
  destruct (get_params_ok r) as (q' & P4 & (_ & _ & _ & RA & RB & RC & X & Y & Z)); try apply B. assert (q' = q) by congruence. subst q'.
  destruct (cos_deg_sign _ RA), (cos_deg_sign _ RB), (cos_deg_sign _ RC).
  assert (0 < pa q * pb q) by (apply Rmult_lt_0_compat; auto). assert (0 < pa q * pc q) by (apply Rmult_lt_0_compat; auto). assert (0 < pb q * pc q) by (apply Rmult_lt_0_compat; auto).
  assert (NN : forall x y, 0 < x -> y <= 0 -> x * y <= 0) by (intros; nra).
  rewrite X, Y, Z. repeat split; intros; first [apply NN; auto|apply Rmult_le_pos; [lra|auto]].
Qed.
Lemma reduced_obtuse r : pairwise_reduced r -> dot (row1 r) (row2 r) <= 0 -> dot (row1 r) (row3 r) <= 0 -> dot (row2 r) (row3 r) <= 0 -> nonneg (terms_obtuse r).
Proof.
  intros ((A1 & A2) & (B1 & B2) & (C1 & C2)) X Y Z. rewrite Rabs_left1 in A1, A2, B1, B2, C1, C2 by auto.
  unfold terms_obtuse. cbv zeta. nonneg_list.
Qed.
Lemma reduced_acute r : pairwise_reduced r -> 0 <= dot (row1 r) (row2 r) -> dot (row1 r) (row2 r) <= dot (row1 r) (row3 r) -> dot (row1 r) (row2 r) <= dot (row2 r) (row3 r) ->
  nonneg (terms_acute r).
Proof.
  intros ((A1 & A2) & (B1 & B2) & (C1 & C2)) X Y Z. rewrite Rabs_right in A1, A2, B1, B2, C1, C2 by lra.
  unfold terms_acute. cbv zeta. nonneg_list.
Qed.
Lemma tP_id c r : get_reciprocal (mmul (tr t_P) c) = Ok r -> get_reciprocal c = Ok r.
Proof. unfold t_P. replace (tr (mk 1 0 0 0 1 0 0 0 1)) with mid by (vunfold; reflexivity). rewrite mmul_id_l. auto. Qed.
Lemma rec_fun c r r' : get_reciprocal c = Ok r -> get_reciprocal c = Ok r' -> r' = r.
Proof. congruence. Qed.
Definition Z_if_aP2 (s : string) : list string := if String.eqb s "aP2" then ["Z"] else [].
Theorem C55_hpkot_triclinic : forall spglib cell atoms arg cv d cc ca r s,
  obtain_data spglib cell atoms arg = Ok d -> lower cv = "hpkot" -> crystal_family d = "a" -> centring_type d = "P" ->
  get_conventional spglib cell atoms cv arg = Ok (cc, ca) -> get_reciprocal cc = Ok r -> pairwise_reduced r ->
  hpkot_get_extended_bl_symbol spglib cell atoms arg = Ok s ->
  points_in_zone spglib cell atoms arg cv (Z_if_aP2 s).
Proof.
  intros spglib cell atoms arg cv d cc ca r s D L F C GC RR RED SY.
  apply (zone_lift _ _ _ _ _ _ _ D). intros cc0 ca0 pts0 path0 m r0 CV G T M R PR.
  assert (EQ := same_conventional _ _ _ _ _ _ _ _ _ _ D CV GC G). subst cc0.
  destruct (hpkot_table_inv _ _ _ _ _ _ _ _ _ L G T) as (s' & p & S & TP & P & HP).
  assert (s' = s).
  { unfold hpkot_get_extended_bl_symbol in S, SY. rewrite D in SY. rewrite (obtain_again _ _ _ _ _ D) in S. congruence. }
  subst s'. matrix_of M L F C. apply tP_id in R. assert (r0 = r) by congruence. subst r0.
  destruct (C35_hpkot_setting _ _ _ _ _ _ _ _ D F L GC) as (r' & q & R' & Q & U & (SM1 & SM2)). assert (r' = r) by congruence. subst r'.
  destruct (C40_triclinic _ _ _ _ _ _ _ _ _ (obtain_again _ _ _ _ _ D) F C HP RR Q) as (X & Y & W). rewrite S in X, Y, W.
  destruct (dot_signs _ _ Q) as (S1 & S2 & S3 & S4 & S5 & S6). unfold lattice_type in TP. rewrite F, C in TP.
  destruct W as [W|W]; injection W as ->; points_of TP P.
  - change (Z_if_aP2 "aP2") with ["Z"]. destruct (proj1 X eq_refl) as (A1 & A2 & A3).
    pose proof (zone_H91aP r pts0 (reduced_obtuse _ RED (S3 A3) (S2 A2) (S1 A1)) TP) as ZZ.
    apply (Forall_impl _ (fun kv (H : fst kv <> "Z" -> zone_ok r kv) (N : ~ In (fst kv) ["Z"]) => H (fun E => N (or_introl (eq_sym E)))) ZZ).
  - change (Z_if_aP2 "aP3") with (@nil string). destruct (proj1 Y eq_refl) as (A1 & A2 & A3).
    assert (B1 := S4 (Rlt_le _ _ A1)). assert (B2 := S5 (Rlt_le _ _ A2)). assert (B3 := S6 (Rlt_le _ _ A3)).
    rewrite !Rabs_right in SM1, SM2 by lra.
    pose proof (zone_H92aP r pts0 (reduced_acute _ RED B3 SM1 SM2) TP) as ZZ.
    apply (Forall_impl _ (fun kv (H : zone_ok r kv) _ => H) ZZ).
Qed.
Print Assumptions C55_hpkot_triclinic.
(* the point Z of every lattice with the symbol aP2 is the origin: it is not on the surface of the zone *)
Lemma origin_inside r : det r <> 0 -> ~ on_surface r vzero.
Proof.
  intros D (_ & n & N & E). apply N. assert (V : vmat (ofZv n) r = vzero).
  { revert E. generalize (vmat (ofZv n) r). intros [x y z] E. unfold dist2 in E. revert E. vunfold. intros E. unfold vzero. f_equal; nra. }
  apply lin_indep in V; auto. destruct n as [x y z]. unfold ofZv, vzero in V. cbn [zx zy zz] in V. injection V as V1 V2 V3.
  apply eq_IZR in V1, V2, V3. subst. reflexivity.
Qed.
Theorem C55_hpkot_aP2_Z : forall spglib cell atoms arg cv tr rel path pts,
  lower cv = "hpkot" -> hpkot_get_extended_bl_symbol spglib cell atoms arg = Ok "aP2" ->
  get_path_and_points spglib cell atoms arg cv tr rel = Ok (path, pts) ->
  In ("GAMMA", vzero) pts /\ In ("Z", vzero) pts /\ forall r, det r <> 0 -> ~ on_surface r vzero.
Proof.
  intros spglib cell atoms arg cv time rel path pts L SY P.
  destruct (path_inv _ _ _ _ _ _ _ _ _ P) as (d & pts0 & path0 & pc & pa & r & pts1 & inv & D & T & K & GP & R & Q & I & E & CV).
  assert (SY' : hpkot_get_extended_bl_symbol spglib cell atoms (Data d) = Ok "aP2").
  { unfold hpkot_get_extended_bl_symbol in *. rewrite D in SY. rewrite (obtain_again _ _ _ _ _ D). exact SY. }
  unfold table_of in T. rewrite L in T. change (String.eqb "hpkot" "sc") with false in T. cbv iota in T.
  apply bind_ok in T. destruct T as ([cc ca] & G & T). rewrite SY' in T. cbn [bind] in T. apply bind_ok in T. destruct T as (p0 & TP & T).
  apply bind_ok in T. destruct T as (k & _ & T). injection T as -> ->.
  assert (PP := TP). unfold hpkot_get_points in PP. apply bind_ok in PP. destruct PP as (p & PP & _). points_of TP PP. injection TP as <-.
  assert (IN : In ("GAMMA", vzero) pts1 /\ In ("Z", vzero) pts1).
  { unfold place_points in Q. apply bind_ok in Q. destruct Q as (b & _ & Q). injection Q as <-. cbn [map fst snd].
    assert (V : (let absolute := vmat (V3 0 0 0) r in if rel then vmat absolute b else absolute) = vzero).
    { cbv zeta. destruct rel; vunfold; unfold vzero; f_equal; ring. }
    cbv zeta in V. rewrite V. cbn. auto. }
  assert (SUB : forall kv, In kv pts1 -> In kv pts).
  { destruct (negb inv && negb time); destruct E as (_ & ->); auto. intros [k0 v0] J.
    rewrite <- (place_keys _ _ _ _ _ Q) in K. apply table_ok_spec in K. destruct K as (l & _ & _ & _ & ND & _).
    destruct (extend_keys pts1) as (_ & X); [|apply X; auto]. tauto. }
  split; [apply SUB; tauto|]. split; [apply SUB; tauto|]. apply origin_inside.
Qed.
Print Assumptions C55_hpkot_aP2_Z.

(* ---- SC ---- *)
Lemma sc_table_inv spglib cell atoms d cv cc ca pts0 path0 : lower cv = "sc" ->
  get_conventional spglib cell atoms (lower cv) (Data d) = Ok (cc, ca) -> table_of spglib cell atoms d cv = Ok (pts0, path0) ->
  exists v p, sc_get_variation spglib cell atoms (Data d) = Ok v /\ sc_get_points cc (lattice_type d) v = Ok pts0 /\
    get_params cc = Ok p /\ sc_params spglib cell atoms d cc p.
Proof.
  intros L G T. unfold table_of in T. rewrite L in T. change (String.eqb "sc" "sc") with true in T. cbv iota in T.
  rewrite conventional_lower in T by (rewrite L; cbn; auto). rewrite G in T. cbn [bind] in T.
  apply bind_ok in T. destruct T as (s & S & T). apply bind_ok in T. destruct T as (p0 & P & T). apply bind_ok in T. destruct T as (k & _ & T). injection T as -> ->.
  pose proof P as P'. unfold sc_get_points in P'. apply bind_ok in P'. destruct P' as (p & P' & _).
  exists s, p. repeat split; auto. exists ca. rewrite conventional_lower by (cbn; auto). change (lower "SC") with "sc". rewrite <- L. exact G.
Qed.
Ltac sc_points_of H P F C := unfold lattice_type in H; rewrite F, C in H; cbn [String.append] in H; unfold sc_get_points in H; rewrite P in H; cbn [bind] in H; cbv zeta in H;
  match type of H with context [lookup ?l SC_BRAVAIS_LATTICE_SHORT_NAMES] =>
    let v := eval vm_compute in (lookup l SC_BRAVAIS_LATTICE_SHORT_NAMES) in change (lookup l SC_BRAVAIS_LATTICE_SHORT_NAMES) with v in H end;
  cbv iota in H; cbn [String.eqb Ascii.eqb Bool.eqb] in H.
Ltac zone_start_s D L GC s p :=
  zone_of_table L D;
  match goal with T : table_of _ _ _ _ _ = Ok (?pts0, ?path0), G : get_conventional _ _ _ (lower _) (Data _) = Ok (?cc0, _), CV : In (lower _) _ |- _ =>
    assert (EQ := same_conventional _ _ _ _ _ _ _ _ _ _ D CV GC G); subst cc0; destruct (sc_table_inv _ _ _ _ _ _ _ _ _ L G T) as (s & p & S & TP & P & HP) end;
  pose proof K_pos as KP.
Lemma is_variation_true v s : is_variation v s = true -> v = Some s.
Proof. destruct v as [v|]; cbn; [|discriminate]. intros H. apply String.eqb_eq in H. congruence. Qed.
Lemma one_of_true v l : one_of v l = true -> exists s, In s l /\ v = Some s.
Proof. unfold one_of. intros H. apply existsb_exists in H. destruct H as (s & I & H). apply is_variation_true in H. eauto. Qed.
Theorem C55_sc_cubic : forall spglib cell atoms arg cv d cc ca,
  obtain_data spglib cell atoms arg = Ok d -> lower cv = "sc" -> crystal_family d = "c" -> In (centring_type d) ["P"; "F"; "I"] ->
  get_conventional spglib cell atoms cv arg = Ok (cc, ca) -> cubic cc ->
  points_in_zone spglib cell atoms arg cv [].
Proof.
  intros spglib cell atoms arg cv d cc ca D L F C GC SH. zone_start_s D L GC s p.
  destruct SH as ((RA & E1) & E2). destruct (box_of _ _ P RA) as (B & PA & PB & PC). destruct (params_norms _ _ P) as (N1 & N2 & N3).
  assert (pb p = pa p) by congruence. assert (pc p = pa p) by congruence. rewrite H, H0 in *. pose proof (inv_sq_pos _ PA).
  assert (HA : pa p <> 0) by lra.
  destruct C as [C|[C|[C|[]]]]; symmetry in C; matrix_of M L F C; sc_points_of TP P F C;
  first
  [ apply (zone_S2cP r _ (pa p) _ KP PA); auto; [unfold terms_H69cP; nonneg_list|apply (met_P cc r _ _ _ HA HA HA B R)]
  | apply (zone_S3cF r _ (pa p) _ KP PA); auto; [unfold terms_H70cF; nonneg_list|apply (met_F cc r _ _ _ HA HA HA B R)]
  | apply (zone_S4cI r _ (pa p) _ KP PA); auto; [unfold terms_H71cI; nonneg_list|apply (met_cI cc r _ HA B R)] ].
Qed.
Print Assumptions C55_sc_cubic.
Theorem C55_sc_tetragonal : forall spglib cell atoms arg cv d cc ca,
  obtain_data spglib cell atoms arg = Ok d -> lower cv = "sc" -> crystal_family d = "t" -> In (centring_type d) ["P"; "I"] ->
  get_conventional spglib cell atoms cv arg = Ok (cc, ca) -> tetragonal cc ->
  points_in_zone spglib cell atoms arg cv [].
Proof.
  intros spglib cell atoms arg cv d cc ca D L F C GC SH. zone_start_s D L GC s p.
  destruct SH as (RA & E1). destruct (box_of _ _ P RA) as (B & PA & PB & PC). destruct (params_norms _ _ P) as (N1 & N2 & N3).
  assert (H : pb p = pa p) by congruence. rewrite H in *. pose proof (inv_sq_pos _ PA). pose proof (inv_sq_pos _ PC).
  assert (HA : pa p <> 0) by lra. assert (HC : pc p <> 0) by lra.
  destruct C as [C|[C|[]]]; symmetry in C; matrix_of M L F C; sc_points_of TP P F C.
  - apply (zone_S5tP r _ (pa p) (pc p) _ KP PA PC); auto; [unfold terms_H69cP; nonneg_list|apply (met_P cc r _ _ _ HA HA HC B R)].
  - destruct (C39_tetragonal _ _ _ _ _ _ _ (obtain_again _ _ _ _ _ D) F C HP) as (X & Y & _). rewrite S in X, Y.
    destruct (is_variation s "BCT1") eqn:V1; [|destruct (is_variation s "BCT2") eqn:V2; [|discriminate]].
    + apply is_variation_true in V1. subst s. assert (LE := Rlt_le _ _ (proj1 X eq_refl)). pose proof (inv_sq_le _ _ PC LE).
      apply (zone_S6tI r _ (pa p) (pc p) _ KP PA PC); auto; [unfold terms_H73tI; nonneg_list|apply (met_tI cc r _ _ HA HC B R)].
    + apply is_variation_true in V2. subst s. assert (LE := Rlt_le _ _ (proj1 Y eq_refl)). pose proof (inv_sq_le _ _ PA LE).
      apply (zone_S7tI r _ (pa p) (pc p) _ KP PA PC); auto; [unfold terms_H74tI; nonneg_list|apply (met_I cc r _ _ _ HA HA HC B R)].
Qed.
Print Assumptions C55_sc_tetragonal.
Theorem C55_sc_hexagonal : forall spglib cell atoms arg cv d cc ca,
  obtain_data spglib cell atoms arg = Ok d -> lower cv = "sc" -> crystal_family d = "h" -> centring_type d = "P" ->
  get_conventional spglib cell atoms cv arg = Ok (cc, ca) -> hexagonal cc ->
  points_in_zone spglib cell atoms arg cv [].
Proof.
  intros spglib cell atoms arg cv d cc ca D L F C GC SH. zone_start_s D L GC s p.
  destruct (hexagonal_gram _ _ P SH) as (B & PA & PC). pose proof (inv_sq_pos _ PC).
  assert (HA : pa p <> 0) by lra. assert (HC : pc p <> 0) by lra.
  assert (0 < 2 / (3 * (pa p * pa p))) by (apply Rdiv_lt_0_compat; [lra|nra]).
  matrix_of M L F C; sc_points_of TP P F C;
  (apply (zone_S13hP r _ (pa p) (pc p) _ KP PA PC); auto; [unfold terms_H84hP; nonneg_list|apply (met_hP cc r _ _ HA HC B R)]).
Qed.
Print Assumptions C55_sc_hexagonal.
(* The variation is chosen within a tolerance.  For ORCF3 the equation 1/a^2 = 1/b^2 + 1/c^2 holds
   only up to symprec; it must not be violated to the side of ORCF2. *)
Theorem C55_sc_orthorhombic : forall spglib cell atoms arg cv d cc ca,
  obtain_data spglib cell atoms arg = Ok d -> lower cv = "sc" -> crystal_family d = "o" -> In (centring_type d) ["P"; "F"; "I"; "C"; "A"] ->
  get_conventional spglib cell atoms cv arg = Ok (cc, ca) -> right_angles cc -> 0 <= symprec d ->
  (sc_get_variation spglib cell atoms arg = Ok (Some "ORCF3") ->
   inverse_square (norm (row2 cc)) + inverse_square (norm (row3 cc)) <= inverse_square (norm (row1 cc))) ->
  points_in_zone spglib cell atoms arg cv [].
Proof.
  intros spglib cell atoms arg cv d cc ca D L F C GC RA SP MID. zone_start_s D L GC s p.
  assert (SV : sc_get_variation spglib cell atoms arg = Ok s).
  { unfold sc_get_variation in *. rewrite D. rewrite (obtain_again _ _ _ _ _ D) in S. exact S. }
  rewrite SV in MID.
  destruct (box_of _ _ P RA) as (B & PA & PB & PC). destruct (params_norms _ _ P) as (N1 & N2 & N3). rewrite N1, N2, N3 in MID. unfold inverse_square in MID.
  pose proof (inv_sq_pos _ PA). pose proof (inv_sq_pos _ PB). pose proof (inv_sq_pos _ PC).
  assert (HA : pa p <> 0) by lra. assert (HB : pb p <> 0) by lra. assert (HC : pc p <> 0) by lra.
  pose proof (C33_ordered _ _ _ _ _ _ _ _ D F L GC) as (O1 & O2 & _). rewrite N1, N2, N3 in O1. rewrite N1, N2 in O2.
  destruct C as [C|[C|[C|[C|[C|[]]]]]]; symmetry in C; matrix_of M L F C; sc_points_of TP P F C.
  - apply (zone_S8oP r _ (pa p) (pb p) (pc p) _ KP PA PB PC); auto; [unfold terms_H69cP; nonneg_list|apply (met_P cc r _ _ _ HA HB HC B R)].
  - destruct (C39_orthorhombic _ _ _ _ _ _ _ D F C HP SP) as (X & Y & Z & _ & OO). rewrite SV in X, Y, Z. unfold inverse_square in *.
    destruct (met_F cc r _ _ _ HA HB HC B R) as (M1 & M2 & M3).
    pose proof (inv_sq_le _ _ PA (Rlt_le _ _ (proj1 OO))). pose proof (inv_sq_le _ _ PB (Rlt_le _ _ (proj2 OO))).
    destruct (one_of s ["ORCF1"; "ORCF3"]) eqn:V1; [|destruct (is_variation s "ORCF2") eqn:V2; [|discriminate]].
    + apply one_of_true in V1. destruct V1 as (v & [<-|[<-|[]]] & ->).
      * apply (zone_S9oF r _ (pa p) (pb p) (pc p) _ KP PA PB PC); auto. destruct (proj1 X eq_refl). unfold terms_H76oF; nonneg_list.
      * apply (zone_S9oF r _ (pa p) (pb p) (pc p) _ KP PA PB PC); auto. specialize (MID eq_refl). unfold terms_H76oF; nonneg_list.
    + apply is_variation_true in V2. subst s. apply (zone_S10oF r _ (pa p) (pb p) (pc p) _ KP PA PB PC); auto. destruct (proj1 Y eq_refl). unfold terms_H70cF; nonneg_list.
  - destruct (met_I cc r _ _ _ HA HB HC B R) as (M1 & M2 & M3).
    assert (OO : pa p < pb p < pc p) by (apply O1; rewrite C; cbn; auto).
    pose proof (inv_sq_le _ _ PA (Rlt_le _ _ (proj1 OO))). pose proof (inv_sq_le _ _ PB (Rlt_le _ _ (proj2 OO))).
    apply (zone_S11oI r _ (pa p) (pb p) (pc p) _ KP PA PB PC); auto. unfold terms_H74tI; nonneg_list.
  - destruct (met_C cc r _ _ _ HA HB HC B R) as (M1 & M2).
    assert (OO : pa p < pb p) by (apply O2; unfold one_face; rewrite C; cbn; auto). pose proof (inv_sq_le _ _ PA (Rlt_le _ _ OO)).
    apply (zone_S12oC r _ (pa p) (pb p) (pc p) _ KP PA PB PC); auto. unfold terms_H82oC; nonneg_list.
  - destruct (met_C cc r _ _ _ HA HB HC B R) as (M1 & M2).
    assert (OO : pa p < pb p) by (apply O2; unfold one_face; rewrite C; cbn; auto). pose proof (inv_sq_le _ _ PA (Rlt_le _ _ OO)).
    apply (zone_S12oC r _ (pa p) (pb p) (pc p) _ KP PA PB PC); auto. unfold terms_H82oC; nonneg_list.
Qed.
Print Assumptions C55_sc_orthorhombic.
Theorem C55_sc_rhombohedral : forall spglib cell atoms arg cv d cc ca,
  obtain_data spglib cell atoms arg = Ok d -> lower cv = "sc" -> crystal_family d = "h" -> centring_type d = "R" ->
  get_conventional spglib cell atoms cv arg = Ok (cc, ca) -> rhombohedral_shape cc -> 0 <= spglib_angle_or_default d ->
  points_in_zone spglib cell atoms arg cv [].
Proof.
  intros spglib cell atoms arg cv d cc ca D L F C GC (NB & NC & X & Y) SP. zone_start_s D L GC s p.
  matrix_of M L F C; sc_points_of TP P F C.
  destruct (C39_rhombohedral _ _ _ _ _ _ _ (obtain_again _ _ _ _ _ D) F C HP SP) as (V1 & V2 & _). rewrite S in V1, V2.
  pose proof P as P'. apply get_params_inv in P'. destruct P' as (BG & E).
  destruct (get_params_ok cc) as (p' & P1 & (MA & MB & MC & RA & _ & _ & Z & _ & _)); try apply BG. assert (p' = p) by congruence. subst p'. clear E BG P1.
  destruct (params_pos _ _ P) as (PA & _ & _). set (q := cos (palpha p * TORADIANS)) in *.
  assert (EB : pb p = pa p) by congruence. assert (EC : pc p = pa p) by congruence. rewrite EB, EC in Z.
  assert (D1 : dot (row1 cc) (row1 cc) = pa p * pa p) by (rewrite <- norm_sqr, MA; auto).
  assert (D2 : dot (row2 cc) (row2 cc) = pa p * pa p) by (rewrite <- norm_sqr, MB, EB; auto).
  assert (D3 : dot (row3 cc) (row3 cc) = pa p * pa p) by (rewrite <- norm_sqr, MC, EC; auto).
  assert (Z12 : dot (row1 cc) (row2 cc) = pa p * pa p * q) by congruence.
  assert (Z13 : dot (row1 cc) (row3 cc) = pa p * pa p * q) by congruence.
  assert (B : gram cc = M3 (V3 (pa p * pa p) (pa p * pa p * q) (pa p * pa p * q)) (V3 (pa p * pa p * q) (pa p * pa p) (pa p * pa p * q)) (V3 (pa p * pa p * q) (pa p * pa p * q) (pa p * pa p)))
    by (rewrite gram_dots, D1, D2, D3, Z12, Z13, Z; reflexivity).
  assert (DC := det_prim _ _ _ R).
  assert (DD : det cc * det cc = pa p * pa p * (pa p * pa p) * (pa p * pa p) * ((1 - q) * (1 - q) * (1 + 2 * q))).
  { rewrite gram_det. cbv zeta. rewrite D1, D2, D3, Z12, Z13, Z. ring. }
  assert (DP : 0 < det cc * det cc) by (destruct (Rtotal_order (det cc) 0) as [|[|]]; [nra|contradiction|nra]).
  assert (A2 : 0 < pa p * pa p) by nra.
  assert (A6 : 0 < pa p * pa p * (pa p * pa p) * (pa p * pa p)) by (apply Rmult_lt_0_compat; [apply Rmult_lt_0_compat|]; auto).
  assert (QQ : 0 < (1 - q) * (1 - q) * (1 + 2 * q)).
  { rewrite DD in DP. revert DP A6. generalize (pa p * pa p * (pa p * pa p) * (pa p * pa p)), ((1 - q) * (1 - q) * (1 + 2 * q)). intros u w U W.
    destruct (Rle_dec w 0); [|lra]. exfalso. nra. }
  assert (Q1 : q <= 1) by (unfold q; apply COS_bound).
  assert (Q2 : q <> 1) by (intros E; rewrite E in QQ; lra).
  assert (H1 : 0 < 1 - q) by lra. assert (H2 : 0 < 1 + 2 * q) by (assert (0 < (1 - q) * (1 - q)) by nra; nra).
  set (w := pa p * pa p * (1 - q) * (1 + 2 * q)).
  assert (W : 0 < w) by (unfold w; apply Rmult_lt_0_compat; [apply Rmult_lt_0_compat|]; auto).
  assert (IW : 0 < / w) by (apply Rinv_0_lt_compat; auto).
  assert (HA : pa p <> 0) by lra. assert (N1 : 1 - q <> 0) by lra. assert (N2 : 1 + 2 * q <> 0) by lra.
  destruct (met_hR cc r _ _ HA N1 N2 B R) as (M1 & M2).
  destruct (cos_deg_sign _ RA) as (SG1 & SG2). fold q in SG1, SG2.
  assert (T1 : 0 <= (1 - q) * / w) by (apply Rmult_le_pos; lra). assert (T2 : 0 <= (1 + 2 * q) * / w) by (apply Rmult_le_pos; lra).
  destruct (is_variation s "RHL1") eqn:W1; [|destruct (is_variation s "RHL2") eqn:W2; [|discriminate]].
  - apply is_variation_true in W1. subst s. assert (LT := proj1 V1 eq_refl). assert (QP : 0 <= q) by (apply SG2; lra).
    assert (0 <= q * / w) by (apply Rmult_le_pos; lra).
    apply (zone_S14hR r _ (pa p) (palpha p) _ KP PA); auto. fold q. fold w. unfold terms_S14hR. unfold Rdiv. nonneg_list.
  - apply is_variation_true in W2. subst s. assert (LT := proj1 V2 eq_refl). assert (QN : q <= 0) by (apply SG1; lra).
    assert (0 <= - q * / w) by (apply Rmult_le_pos; lra).
    apply (zone_S15hR r _ (pa p) (palpha p) _ KP PA); auto. fold q. fold w. unfold terms_S15hR. unfold Rdiv. nonneg_list.
Qed.
Print Assumptions C55_sc_rhombohedral.
Lemma monoclinic_a_gram c p : get_params c = Ok p -> det c <> 0 -> monoclinic_a c ->
  let a := pa p in let b := pb p in let e := pc p in let q := cos (palpha p * TORADIANS) in let s := sin (palpha p * TORADIANS) in
  gram c = M3 (V3 (a * a) 0 0) (V3 0 (b * b) (b * e * q)) (V3 0 (b * e * q) (e * e)) /\ 0 < a /\ 0 < b /\ 0 < e /\ 0 < s /\ q * q = 1 - s * s /\
  dot (row2 c) (row2 c) = b * b /\ dot (row3 c) (row3 c) = e * e /\ dot (row2 c) (row3 c) = b * e * q.
Proof.
  intros P D (X & Y & _) a b e q s. pose proof P as P'. apply get_params_inv in P'. destruct P' as (B & E).
  destruct (get_params_ok c) as (p' & P1 & (NA & NB & NC & RB & _ & _ & Z & _ & _)); try apply B. assert (p' = p) by congruence. subst p'. clear E B P1.
  destruct (params_pos _ _ P) as (P1 & P2 & P3).
  fold a b e q in NA, NB, NC, Z. assert (PY := sin2_cos2 (palpha p * TORADIANS)). unfold Rsqr in PY. fold q s in PY.
  assert (D1 : dot (row1 c) (row1 c) = a * a) by (rewrite <- norm_sqr, NA; auto).
  assert (D2 : dot (row2 c) (row2 c) = b * b) by (rewrite <- norm_sqr, NB; auto).
  assert (D3 : dot (row3 c) (row3 c) = e * e) by (rewrite <- norm_sqr, NC; auto).
  rewrite gram_dots, D1, D2, D3, X, Y, Z.
  assert (S0 : 0 <= s) by (destruct (rad_range _ RB); apply sin_ge_0; auto).
  assert (S : s <> 0).
  { intros S. apply D. assert (DD : det c * det c = 0).
    { rewrite gram_det. cbv zeta. rewrite D1, D2, D3, X, Y, Z. rewrite S in PY. assert (q * q = 1) by lra.
      replace (a * a * (b * b) * (e * e) + 2 * (b * e * q) * 0 * 0 - a * a * (b * e * q) * (b * e * q) - b * b * 0 * 0 - e * e * 0 * 0)
        with ((a * a) * (b * b) * (e * e) * (1 - q * q)) by ring. rewrite H. ring. }
    apply Rmult_integral in DD. tauto. }
  repeat split; auto; lra.
Qed.
Definition F3_if_MCLC12 (v : string) : list string := if mem v ["MCLC1"; "MCLC2"] then ["F3"] else [].
(* The variations MCLC2 and MCLC4 are chosen within a tolerance; the equations must not be violated
   to the sides of MCLC3 and MCLC5. *)
Theorem C55_sc_monoclinic : forall spglib cell atoms arg cv d cc ca p v,
  obtain_data spglib cell atoms arg = Ok d -> lower cv = "sc" -> crystal_family d = "m" ->
  get_conventional spglib cell atoms cv arg = Ok (cc, ca) -> monoclinic_a cc ->
  0 <= symprec d -> 0 <= spglib_angle_or_default d -> get_params cc = Ok p ->
  sc_get_variation spglib cell atoms arg = Ok (Some v) ->
  let bb := dot (row2 cc) (row2 cc) in let ee := dot (row3 cc) (row3 cc) in let be := dot (row2 cc) (row3 cc) in
  let q := cos (palpha p * TORADIANS) in let s := sin (palpha p * TORADIANS) in
  (centring_type d = "P" /\ be <= bb /\ be <= ee) \/
  (centring_type d = "C" /\ 2 * be <= bb /\ be <= ee /\
   (v = "MCLC2" -> pa p <= pb p * s) /\ (v = "MCLC4" -> pb p / pc p * q + pb p * pb p / (pa p * pa p) * (s * s) <= 1)) ->
  points_in_zone spglib cell atoms arg cv (F3_if_MCLC12 v).
Proof.
  intros spglib cell atoms arg cv d cc ca p v D L F GC SH SP SA PP SV bb ee be q s C.
  apply (zone_lift _ _ _ _ _ _ _ D). intros cc0 ca0 pts0 path0 m r CV G T M R (patoms & PR).
  assert (EQ := same_conventional _ _ _ _ _ _ _ _ _ _ D CV GC G). subst cc0.
  destruct (sc_table_inv _ _ _ _ _ _ _ _ _ L G T) as (v' & p' & S & TP & P & HP).
  assert (p' = p) by congruence. subst p'. clear PP.
  assert (v' = Some v).
  { unfold sc_get_variation in S, SV. rewrite D in SV. rewrite (obtain_again _ _ _ _ _ D) in S. congruence. }
  subst v'. pose proof K_pos as KP.
  assert (DC := det_prim _ _ _ R). destruct (monoclinic_a_gram _ _ P DC SH) as (B & PA & PB & PC & PS & PQ & D2 & D3 & D23).
  unfold bb, ee, be in C. rewrite D2, D3, D23 in C. destruct SH as (_ & _ & NEG). rewrite D23 in NEG. clear bb ee be.
  fold q s in B, PS, PQ, D23, C, NEG.
  assert (HA : pa p <> 0) by lra. assert (HB : pb p <> 0) by lra. assert (HC : pc p <> 0) by lra. assert (HS : s <> 0) by lra.
  destruct (mono_weights _ _ q _ PB PC PS) as (i & I & E1 & E2 & E3). pose proof (inv_sq_pos _ PA) as IA.
  assert (NE : 0 <= pb p * pc p * q * i) by (apply Rmult_le_pos; lra).
  assert (W : forall x y, x <= y -> x * i <= y * i) by (intros; apply Rmult_le_compat_r; lra).
  assert (CI : 0 < pc p * pc p * i) by (apply Rmult_lt_0_compat; nra).
  destruct C as [(C & C1 & C2)|(C & C1 & C2 & C3 & C4)]; matrix_of M L F C; apply W in C1; apply W in C2; sc_points_of TP P F C.
  - assert (ZZ : Forall (zone_ok r) pts0).
    { apply (zone_S16mP r _ (pa p) (pb p) (pc p) (palpha p) _ KP PA PB PC HS); auto.
      + fold q s. rewrite E1, E2, E3. unfold terms_S16mP; nonneg_list.
      + apply (met_SmP cc r _ _ _ _ _ HA HB HC HS PQ B R). }
    apply (Forall_impl _ (fun kv (H : zone_ok r kv) _ => H) ZZ).
  - destruct (met_SmC cc r _ _ _ _ _ HA HB HC HS PQ B R) as (M1 & M2 & M3).
    assert (GP : exists pa0, get_primitive spglib cell atoms "SC" (Data d) = Ok (mmul (tr t_mC) cc, pa0)).
    { exists patoms. unfold t_mC. rewrite <- PR. unfold get_primitive, primitive_structure. rewrite L. reflexivity. }
    destruct GP as (pa0 & GP).
    (* the angle between the first two reciprocal vectors tells which of A and B is larger *)
    assert (DOT : dot (row1 r) (row2 r) = 4 * (PI * PI) * (/ (pb p * pb p * (s * s)) - / (pa p * pa p))).
    { specialize (M1 (V3 1 0 0) (V3 0 1 0)). unfold terms_S17mC in M1. cbn [form] in M1. unfold lin in M1. cbn [vx vy vz zx zy zz] in M1.
      replace (vmat (V3 1 0 0) r) with (row1 r) in M1 by (destruct r as [[] [] []]; vunfold; f_equal; ring).
      replace (vmat (V3 0 1 0) r) with (row2 r) in M1 by (destruct r as [[] [] []]; vunfold; f_equal; ring).
      rewrite M1. ring. }
    assert (QR : exists qq, get_params r = Ok qq).
    { unfold sc_get_variation in S. rewrite (obtain_again _ _ _ _ _ D) in S. cbn [bind] in S. cbv zeta in S. unfold lattice_type in S. rewrite F, C in S.
      match type of S with context [if mem ?a ?b then _ else _] => change (mem a b) with true in S end. cbv iota in S.
      destruct HP as ((ca1 & HG) & _). rewrite HG in S. cbn [bind] in S. rewrite P in S. cbn [bind] in S.
      cbn [String.append String.eqb Ascii.eqb Bool.eqb] in S. rewrite GP in S. cbn [bind] in S.
      unfold t_mC in S. match type of S with context [get_reciprocal ?x] => replace (get_reciprocal x) with (Ok r) in S by (symmetry; exact R) end. cbn [bind] in S.
      apply bind_ok in S. destruct S as (qq & Q & _). exists qq. exact Q. }
    destruct QR as (qq & Q).
    destruct (C39_monoclinic _ _ _ _ _ _ _ _ _ _ _ (obtain_again _ _ _ _ _ D) F C HP GP R Q SA SP) as (V1 & V2 & V3 & V4 & V5).
    rewrite S in V1, V2, V3, V4, V5. destruct (dot_signs _ _ Q) as (_ & _ & SG1 & _ & _ & SG2). rewrite DOT in SG1, SG2.
    set (A := / (pa p * pa p)) in *.
    assert (EB : / (pb p * pb p * (s * s)) = pc p * pc p * i) by exact E1. rewrite EB in DOT, SG1, SG2, M1, M2, M3.
    assert (LE1 : 90 <= pgamma qq -> pc p * pc p * i <= A) by (intros J; specialize (SG1 J); nra).
    assert (LE2 : pgamma qq <= 90 -> A <= pc p * pc p * i) by (intros J; specialize (SG2 J); nra).
    set (x := pb p / pc p * q + pb p * pb p / (pa p * pa p) * (s * s)) in *.
    assert (EX : x * (pc p * pc p * i) = pb p * pc p * q * i + A).
    { replace (pb p * pc p * q * i) with (q / (pb p * pc p * (s * s))).
      - rewrite <- E1. unfold x, A. field. auto.
      - replace (pb p * pc p * q * i) with (- (- (pb p * pc p * q) * i)) by ring. rewrite <- E3. field. auto. }
    fold q s in V3, V4, V5. 
    assert (XX : forall y z, y <= z -> y * (pc p * pc p * i) <= z * (pc p * pc p * i)) by (intros; apply Rmult_le_compat_r; lra).
    destruct (one_of (Some v) ["MCLC1"; "MCLC2"]) eqn:W1; [|destruct (one_of (Some v) ["MCLC3"; "MCLC4"]) eqn:W2; [|destruct (is_variation (Some v) "MCLC5") eqn:W3; [|discriminate]]].
    + assert (EXM : F3_if_MCLC12 v = ["F3"]).
      { apply one_of_true in W1. destruct W1 as (v' & J & EV). injection EV as <-. unfold F3_if_MCLC12. rewrite (proj2 (mem_true _ _) J). reflexivity. }
      rewrite EXM.
      assert (AB : pc p * pc p * i <= A).
      { apply one_of_true in W1. destruct W1 as (v' & [<-|[<-|[]]] & EV); injection EV as ->.
        - apply LE1. pose proof (proj1 V1 eq_refl). lra.
        - specialize (C3 eq_refl). pose proof (inv_sq_le _ _ PA C3) as J. unfold A. rewrite <- E1.
          replace (/ (pb p * pb p * (s * s))) with (/ (pb p * s * (pb p * s))); auto. field. auto. }
      assert (ZZ : Forall (fun kv => fst kv <> "F3" -> zone_ok r kv) pts0).
      { apply (zone_S17mC r _ (pa p) (pb p) (pc p) (palpha p) _ KP PA PB PC HS); auto; fold q s; rewrite ?E1, ?E2, ?E3; fold A.
        - unfold terms_S17mC; nonneg_list.
        - rewrite E2, E3 in M1. exact M1. }
      apply (Forall_impl _ (fun kv (H : fst kv <> "F3" -> zone_ok r kv) (N : ~ In (fst kv) ["F3"]) => H (fun E => N (or_introl (eq_sym E)))) ZZ).
    + assert (X1 : x <= 1).
      { apply one_of_true in W2. destruct W2 as (v' & [<-|[<-|[]]] & EV); injection EV as ->.
        - destruct (proj1 V3 eq_refl) as (_ & J). fold x in J. lra.
        - apply C4. reflexivity. }
      apply XX in X1. rewrite EX in X1.
      assert (ZZ : Forall (zone_ok r) pts0).
      { apply (zone_S18mC r _ (pa p) (pb p) (pc p) (palpha p) _ KP PA PB PC HS); auto; fold q s; rewrite ?E1, ?E2, ?E3; fold A.
        - unfold terms_S18mC; nonneg_list.
        - rewrite E2, E3 in M2. exact M2. }
      apply (Forall_impl _ (fun kv (H : zone_ok r kv) _ => H) ZZ).
    + apply is_variation_true in W3. injection W3 as ->. destruct (proj1 V5 eq_refl) as (K1 & K2). fold x in K2.
      assert (X1 : 1 <= x) by lra. apply XX in X1. rewrite EX in X1. assert (AB : A <= pc p * pc p * i) by (apply LE2; lra).
      assert (ZZ : Forall (zone_ok r) pts0).
      { apply (zone_S19mC r _ (pa p) (pb p) (pc p) (palpha p) _ KP PA PB PC HS); auto; fold q s; rewrite ?E1, ?E2, ?E3; fold A.
        - unfold terms_S19mC; nonneg_list.
        - rewrite E2, E3 in M3. exact M3. }
      apply (Forall_impl _ (fun kv (H : zone_ok r kv) _ => H) ZZ).
Qed.
Print Assumptions C55_sc_monoclinic.
(* The second of the two tables is written for the case when the product of the first two reciprocal
   vectors is the smallest of the three.  The convention picks the angle closest to 90 degrees instead;
   the two choices differ when the lengths differ: see C55_sc_TRI1b_refuted. *)
Theorem C55_sc_triclinic : forall spglib cell atoms arg cv d cc ca r v,
  obtain_data spglib cell atoms arg = Ok d -> lower cv = "sc" -> crystal_family d = "a" -> centring_type d = "P" ->
  get_conventional spglib cell atoms cv arg = Ok (cc, ca) -> get_reciprocal cc = Ok r -> pairwise_reduced r ->
  0 <= spglib_angle_or_default d -> sc_get_variation spglib cell atoms arg = Ok (Some v) ->
  let x := dot (row1 r) (row2 r) in let y := dot (row1 r) (row3 r) in let z := dot (row2 r) (row3 r) in
  (v = "TRI2a" -> x <= 0) -> (v = "TRI1b" -> x <= y /\ x <= z) -> (v = "TRI2b" -> 0 <= x <= y /\ x <= z) ->
  points_in_zone spglib cell atoms arg cv [].
Proof.
  intros spglib cell atoms arg cv d cc ca r v D L F C GC RR RED SA SV x y z H2 H3 H4.
  apply (zone_lift _ _ _ _ _ _ _ D). intros cc0 ca0 pts0 path0 m r0 CV G T M R PR.
  assert (EQ := same_conventional _ _ _ _ _ _ _ _ _ _ D CV GC G). subst cc0.
  destruct (sc_table_inv _ _ _ _ _ _ _ _ _ L G T) as (s & p & S & TP & P & HP).
  cut (Forall (zone_ok r0) pts0). { intros ZZ. apply (Forall_impl _ (fun kv (H : zone_ok r0 kv) _ => H) ZZ). }
  assert (EV : s = Some v).
  { unfold sc_get_variation in S, SV. rewrite D in SV. rewrite (obtain_again _ _ _ _ _ D) in S. congruence. }
  subst s. matrix_of M L F C. apply tP_id in R.
  assert (r0 = r) by congruence. subst r0.
  destruct (C35_sc_setting _ _ _ _ _ _ _ _ D F L SA GC) as (r' & q & R' & Q & U & CL). assert (r' = r) by congruence. subst r'.
  destruct (C39_triclinic _ _ _ _ _ _ _ _ _ (obtain_again _ _ _ _ _ D) F C HP RR Q SA) as (V1 & V2 & V3 & V4 & _). rewrite S in V1, V2, V3, V4.
  destruct (dot_signs _ _ Q) as (S1 & S2 & S3 & S4 & S5 & S6). fold x y z in S1, S2, S3, S4, S5, S6.
  sc_points_of TP P F C.
  destruct (one_of (Some v) ["TRI1a"; "TRI2a"]) eqn:W1; [|destruct (one_of (Some v) ["TRI1b"; "TRI2b"]) eqn:W2; [|discriminate]].
  - apply one_of_true in W1. destruct W1 as (v' & [<-|[<-|[]]] & EV); injection EV as ->.
    + destruct (proj1 V1 eq_refl) as (A1 & A2 & A3). apply zone_S20aP; auto. apply reduced_obtuse; auto; [apply S3|apply S2|apply S1]; lra.
    + destruct (proj1 V3 eq_refl) as (A1 & A2 & A3). apply zone_S20aP; auto. apply reduced_obtuse; auto; [apply S2|apply S1]; lra.
  - apply one_of_true in W2. destruct W2 as (v' & [<-|[<-|[]]] & EV); injection EV as ->.
    + destruct (proj1 V2 eq_refl) as (A1 & A2 & A3). destruct (H3 eq_refl). apply zone_S21aP; auto. apply reduced_acute; auto. apply S6; lra.
    + destruct (H4 eq_refl) as ((? & ?) & ?). apply zone_S21aP; auto. apply reduced_acute; auto.
Qed.
Print Assumptions C55_sc_triclinic.
