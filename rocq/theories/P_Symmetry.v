(* P_Symmetry.v : properties C70 (points whose names differ only in their number are equivalent) and C71 (the
   parts of the recommended path that avoid GAMMA run on the surface of the first Brillouin zone). *)
From Verif Require Import Base M_Strings M_Dict M_Numerical M_Geometry M_Cell M_Niggli M_Atoms T_Tables T_Points M_Spglib M_Conventional
  M_Primitive M_Variation M_Kpoints M_Path F_Geometry F_Voronoi F_Strings F_Atoms F_Kpoints S_Crystal F_Conventional F_Primitive
  P_Conventional P_Monoclinic P_Primitive P_Variation P_Symbol P_Path S_Zone F_Zone F_ZoneTables F_ZoneTables2 F_ZoneCells P_Zone P_ZonePath
  S_Symmetry F_Symmetry F_SymTables.
Open Scope string_scope.
Open Scope list_scope.
Open Scope R_scope.

(* What is claimed of a crystal (all in Cartesian coordinates, for the lattice of the reciprocal cell r of the
   primitive cell that get_primitive returns):
   points whose names have the same letters are equivalent; *)
Definition equivalent_names (spglib : option spglib_module) (cell : mat) (atoms : atoms_dict) (arg : data_arg) (cv : string) : Prop :=
  forall tr path pts pc pa r, get_path_and_points spglib cell atoms arg cv tr false = Ok (path, pts) ->
    get_primitive spglib cell atoms cv arg = Ok (pc, pa) -> get_reciprocal pc = Ok r ->
    forall n1 k1 n2 k2, In (n1, k1) pts -> In (n2, k2) pts -> letters n1 = letters n2 -> equivalent r k1 k2.
(* two points next to each other on the path, neither of them GAMMA, have a plane in common; the points
   between them are on that plane; and those that are in the first Brillouin zone are on its surface. *)
Definition path_on_faces (spglib : option spglib_module) (cell : mat) (atoms : atoms_dict) (arg : data_arg) (cv : string) : Prop :=
  forall tr path pts pc pa r l, get_path_and_points spglib cell atoms arg cv tr false = Ok (path, pts) ->
    get_primitive spglib cell atoms cv arg = Ok (pc, pa) -> get_reciprocal pc = Ok r -> get_path_as_list path = Ok l ->
    forall x y, follows l x y -> x <> "GAMMA" -> y <> "GAMMA" ->
    exists kx ky n, In (x, kx) pts /\ In (y, ky) pts /\ n <> Zv 0 0 0 /\
      forall t, on_plane r n (between kx ky t) /\ (in_zone r (between kx ky t) -> on_surface r (between kx ky t)).

(* ---------- from the tables to the claims ---------- *)
Lemma on_plane_linear r n k : on_plane r n k <-> 2 * dot k (vmat (ofZv n) r) = dot (vmat (ofZv n) r) (vmat (ofZv n) r).
Proof.
  unfold on_plane. assert (X : forall g, dist2 k g = dist2 k vzero - 2 * dot k g + dot g g) by (intros g; unfold dist2; destruct k, g; vunfold; ring).
  rewrite (X (vmat (ofZv n) r)). split; lra.
Qed.
Lemma plane_between r n k k' t : on_plane r n k -> on_plane r n k' -> on_plane r n (between k k' t).
Proof.
  rewrite !on_plane_linear. generalize (vmat (ofZv n) r). intros g A B. unfold between.
  replace (dot (vadd (vscale (1 - t) k) (vscale t k')) g) with ((1 - t) * dot k g + t * dot k' g) by (destruct k, k', g; vunfold; ring).
  replace (2 * ((1 - t) * dot k g + t * dot k' g)) with ((1 - t) * (2 * dot k g) + t * (2 * dot k' g)) by ring. rewrite A, B. ring.
Qed.
Definition zopp (n : zvec) : zvec := Zv (- zx n) (- zy n) (- zz n).
Lemma zopp_nonzero n : n <> Zv 0 0 0 -> zopp n <> Zv 0 0 0.
Proof. intros N Z. apply N. destruct n as [x y z]. unfold zopp in Z. cbn [zx zy zz] in Z. injection Z as Z1 Z2 Z3. f_equal; lia. Qed.
Lemma plane_neg r n k : on_plane r n k -> on_plane r (zopp n) (vneg k).
Proof.
  rewrite !on_plane_linear. replace (vmat (ofZv (zopp n)) r) with (vneg (vmat (ofZv n) r)).
  - generalize (vmat (ofZv n) r). intros g H. replace (dot (vneg k) (vneg g)) with (dot k g) by (destruct k, g; vunfold; ring).
    replace (dot (vneg g) (vneg g)) with (dot g g) by (destruct g; vunfold; ring). auto.
  - unfold zopp, ofZv. cbn [zx zy zz]. rewrite !opp_IZR. generalize (IZR (zx n)), (IZR (zy n)), (IZR (zz n)). intros. destruct r as [[] [] []]. vunfold. f_equal; ring.
Qed.
Lemma letters_prime s : letters (String.append s "_P") = letters s.
Proof. induction s as [|c s IH]; cbn [String.append letters]; [reflexivity|]. destruct (is_letter c); [rewrite IH|]; reflexivity. Qed.
Lemma map_split {A B} (f : A -> B) s pre x y post : map f s = pre ++ x :: y :: post ->
  exists pre' x' y' post', s = pre' ++ x' :: y' :: post' /\ f x' = x /\ f y' = y.
Proof.
  revert s. induction pre as [|z pre IH]; intros s H.
  - destruct s as [|x' [|y' s]]; try discriminate H. cbn in H. exists [], x', y', s. split; [reflexivity|]. split; congruence.
  - destruct s as [|z' s]; [discriminate H|]. cbn in H. assert (H' : map f s = pre ++ x :: y :: post) by congruence.
    apply IH in H'. destruct H' as (pre' & x' & y' & post' & -> & X & Y). exists (z' :: pre'), x', y', post'. auto.
Qed.
Lemma follows_extended l x y : follows (l ++ map (map prime) l) x y -> follows l x y \/ exists x' y', follows l x' y' /\ x = prime x' /\ y = prime y'.
Proof.
  intros (s & pre & post & I & E). apply in_app_or in I. destruct I as [I|I]; [left; exists s, pre, post; auto|right].
  apply in_map_iff in I. destruct I as (s' & <- & I). apply map_split in E. destruct E as (pre' & x' & y' & post' & E & X & Y).
  exists x', y'. split; [exists s', pre', post'; auto|]. auto.
Qed.
(* the claims, of a table of fractional coordinates *)
Definition facts (r : mat) (pts : dict vec) (path : string) : Prop :=
  same_letters r pts /\ forall l, get_path_as_list path = Ok l -> steps_on_planes r pts l.
Lemma sym_lift spglib cell atoms arg cv d : obtain_data spglib cell atoms arg = Ok d ->
  (forall cc ca pts0 path0 m r, In (lower cv) ["sc"; "hpkot"] -> get_conventional spglib cell atoms (lower cv) (Data d) = Ok (cc, ca) ->
    table_of spglib cell atoms d cv = Ok (pts0, path0) -> getitem (lattice_type d) (conversion_table (lower cv)) = Ok m ->
    get_reciprocal (mmul (tr m) cc) = Ok r -> facts r pts0 path0) ->
  equivalent_names spglib cell atoms arg cv /\ path_on_faces spglib cell atoms arg cv.
Proof.
  intros D H.
  assert (X : forall time path pts pc pa r, get_path_and_points spglib cell atoms arg cv time false = Ok (path, pts) ->
    get_primitive spglib cell atoms cv arg = Ok (pc, pa) -> get_reciprocal pc = Ok r ->
    exists pts0 path0 l, facts r pts0 path0 /\ get_path_as_list path0 = Ok l /\ let pts1 := map (fun kv => (fst kv, vmat (snd kv) r)) pts0 in
      NoDup (with_primes (keys pts1)) /\
      ((pts = pts1 /\ path = path0) \/ (pts = extend_points pts1 /\ get_path_as_list path = Ok (l ++ map (map prime) l)))).
  { intros time path pts pc pa r P GP R.
    destruct (path_inv _ _ _ _ _ _ _ _ _ P) as (d' & pts0 & path0 & pc' & pa' & r' & pts1 & inv & D' & T & K & GP' & R' & Q & _ & E & CV).
    assert (d' = d) by congruence. subst d'. rewrite (primitive_again _ _ _ _ _ _ D) in GP. assert (pc' = pc) by congruence. subst pc'.
    assert (r' = r) by congruence. subst r'. clear GP' R'.
    assert (CV' : In (lower cv) ["hpkot"; "sc"]) by (cbn in *; tauto).
    destruct (get_primitive_inv _ _ _ _ _ _ _ _ (obtain_again _ _ _ _ _ D) CV' GP) as (cc & ca & m & v & cps & qs & tv & ps & ts & C & M & PC & _).
    subst pc. specialize (H cc ca pts0 path0 m r CV C T M R).
    assert (KQ := place_keys _ _ _ _ _ Q). assert (Q' : pts1 = map (fun kv => (fst kv, vmat (snd kv) r)) pts0).
    { unfold place_points in Q. cbn [bind] in Q. injection Q as <-. reflexivity. }
    apply table_ok_spec in K. destruct K as (l & L & _ & _ & ND & _ & _ & path' & EX & L'). rewrite <- KQ in ND.
    exists pts0, path0, l. split; [exact H|]. split; [exact L|]. cbv zeta. rewrite <- Q'. split; [exact ND|].
    destruct (negb inv && negb time); destruct E as (E1 & E2); [right|left; auto]. split; [exact E2|]. congruence. }
  clear H. split.
  - intros time path pts pc pa r P GP R n1 k1 n2 k2 I1 I2 E. destruct (X _ _ _ _ _ _ P GP R) as (pts0 & path0 & l & (S & _) & _ & _ & Y).
    set (pts1 := map (fun kv => (fst kv, vmat (snd kv) r)) pts0) in *.
    assert (Z : forall n k, In (n, k) pts -> exists n0 k0, In (n0, k0) pts0 /\ letters n = letters n0 /\ equivalent r (vmat k0 r) k).
    { intros n k I. assert (W : forall n k, In (n, k) pts1 -> exists k0, In (n, k0) pts0 /\ k = vmat k0 r).
      { clear. intros n k I. apply in_map_iff in I. destruct I as ([n0 k0] & E & I). cbn [fst snd] in E. exists k0. split; congruence. }
      destruct Y as [(-> & _)|(-> & _)].
      - apply W in I. destruct I as (k0 & I & ->). exists n, k0. split; auto. split; auto. apply equivalent_refl.
      - apply in_extend in I. destruct I as [I|(n0 & v & I & _ & E0)].
        + apply W in I. destruct I as (k0 & I & ->). exists n, k0. split; auto. split; auto. apply equivalent_refl.
        + apply W in I. destruct I as (k0 & I & ->). exists n0, k0. split; auto. assert (n = String.append n0 "_P") by congruence. assert (k = vneg (vmat k0 r)) by congruence.
          subst n k. split; [apply letters_prime|]. apply equivalent_neg. }
    destruct (Z _ _ I1) as (m1 & j1 & J1 & L1 & Q1). destruct (Z _ _ I2) as (m2 & j2 & J2 & L2 & Q2).
    apply (equivalent_trans _ _ (vmat j1 r)); [apply equivalent_sym; auto|]. apply (equivalent_trans _ _ (vmat j2 r)); auto.
    apply (S m1 j1 m2 j2); auto. congruence.
  - intros time path pts pc pa r l0 P GP R L0 x y FO NX NY. destruct (X _ _ _ _ _ _ P GP R) as (pts0 & path0 & l & (_ & S) & L & ND & Y).
    specialize (S l L). set (pts1 := map (fun kv => (fst kv, vmat (snd kv) r)) pts0) in *.
    assert (W : forall n k, In (n, k) pts0 -> In (n, vmat k r) pts1).
    { intros n k I. unfold pts1. apply (in_map (fun kv : string * vec => (fst kv, vmat (snd kv) r))) in I. exact I. }
    assert (V : forall kx ky n, n <> Zv 0 0 0 -> on_plane r n kx -> on_plane r n ky ->
      forall t, on_plane r n (between kx ky t) /\ (in_zone r (between kx ky t) -> on_surface r (between kx ky t))).
    { intros kx ky n N A B t. pose proof (plane_between _ _ _ _ t A B) as C. split; [exact C|]. intros Z. split; [exact Z|]. exists n. split; [exact N|exact C]. }
    destruct Y as [(-> & ->)|(-> & L')].
    + assert (l0 = l) by congruence. subst l0. destruct (S x y FO NX NY) as (kx & ky & n & IX & IY & N & PX & PY).
      exists (vmat kx r), (vmat ky r), n. split; [apply W; auto|]. split; [apply W; auto|]. split; [auto|]. apply V; auto.
    + assert (l0 = l ++ map (map prime) l) by congruence. subst l0. destruct (extend_keys _ ND) as (_ & EI).
      apply follows_extended in FO. destruct FO as [FO|(x' & y' & FO & -> & ->)].
      * destruct (S x y FO NX NY) as (kx & ky & n & IX & IY & N & PX & PY). exists (vmat kx r), (vmat ky r), n.
        split; [apply EI, W; auto|]. split; [apply EI, W; auto|]. split; [auto|]. apply V; auto.
      * assert (NX' : x' <> "GAMMA") by (intros ->; apply NX; reflexivity). assert (NY' : y' <> "GAMMA") by (intros ->; apply NY; reflexivity).
        destruct (S x' y' FO NX' NY') as (kx & ky & n & IX & IY & N & PX & PY). exists (vneg (vmat kx r)), (vneg (vmat ky r)), (zopp n).
        assert (PR : forall z, z <> "GAMMA" -> prime z = String.append z "_P") by (intros z NZ; unfold prime; apply String.eqb_neq in NZ; rewrite NZ; reflexivity).
        rewrite !PR by auto. split; [apply EI; auto|]. split; [apply EI; auto|]. split; [apply zopp_nonzero; auto|].
        apply V; [apply zopp_nonzero; auto|apply plane_neg; auto|apply plane_neg; auto].
Qed.

(* ---------- the paths of the tables ---------- *)
Definition checks (ps : planes) (path : res string) : bool :=
  match path with Ok p => match get_path_as_list p with Ok l => covers ps l | Err _ => false end | Err _ => false end.
Lemma facts_of r pts ps kp path : kp = Ok path -> checks ps kp = true -> same_letters r pts /\ planes_ok r pts ps -> facts r pts path.
Proof.
  intros -> C (S & P). split; [exact S|]. intros l L. cbn [checks] in C. rewrite L in C. apply (covers_steps _ _ _ _ P C).
Qed.
Lemma hpkot_path spglib cell atoms d cv pts0 path0 s : lower cv = "hpkot" -> table_of spglib cell atoms d cv = Ok (pts0, path0) ->
  hpkot_get_extended_bl_symbol spglib cell atoms (Data d) = Ok s -> getitem s HPKOT_DEFAULT_K_PATHS = Ok path0.
Proof.
  intros L T S. unfold table_of in T. rewrite L in T. change (String.eqb "hpkot" "sc") with false in T. cbv iota in T.
  apply bind_ok in T. destruct T as ([cc ca] & _ & T). rewrite S in T. cbn [bind] in T. apply bind_ok in T. destruct T as (p0 & _ & T).
  apply bind_ok in T. destruct T as (k & K & T). congruence.
Qed.
Lemma sc_path spglib cell atoms d cv pts0 path0 v : lower cv = "sc" -> table_of spglib cell atoms d cv = Ok (pts0, path0) ->
  sc_get_variation spglib cell atoms (Data d) = Ok v -> lookup_path v = Ok path0.
Proof.
  intros L T S. unfold table_of in T. rewrite L in T. change (String.eqb "sc" "sc") with true in T. cbv iota in T.
  apply bind_ok in T. destruct T as ([cc ca] & _ & T). rewrite S in T. cbn [bind] in T. apply bind_ok in T. destruct T as (p0 & _ & T).
  apply bind_ok in T. destruct T as (k & K & T). congruence.
Qed.
Lemma rec_det c r : get_reciprocal c = Ok r -> det r <> 0.
Proof.
  intros R E. apply reciprocal_det in R. rewrite E, Rmult_0_l in R. pose proof PI_RGT_0. assert (0 < PI * PI) by (apply Rmult_lt_0_compat; auto).
  assert (0 < PI * PI * PI) by (apply Rmult_lt_0_compat; auto). lra.
Qed.

(* ---------- HPKOT ---------- *)
Ltac sym_start_h D L GC s p :=
  apply (sym_lift _ _ _ _ _ _ D); intros cc0 ca0 pts0 path0 m r CV G T M R;
  match goal with T : table_of _ _ _ _ _ = Ok (?pts0, ?path0), G : get_conventional _ _ _ (lower _) (Data _) = Ok (?cc0, _), CV : In (lower _) _ |- _ =>
    assert (EQ := same_conventional _ _ _ _ _ _ _ _ _ _ D CV GC G); subst cc0; destruct (hpkot_table_inv _ _ _ _ _ _ _ _ _ L G T) as (s & p & S & TP & P & HP);
    assert (PT := hpkot_path _ _ _ _ _ _ _ _ L T S) end;
  assert (DR := rec_det _ _ R).
Ltac by_table PT lem := apply (facts_of _ _ _ _ _ PT (eq_refl : checks _ _ = true)); eapply lem; eauto.
Ltac checked := vm_compute; reflexivity.
Lemma hpkot_cubic spglib cell atoms arg cv d cc ca :
  obtain_data spglib cell atoms arg = Ok d -> lower cv = "hpkot" -> crystal_family d = "c" -> In (centring_type d) ["P"; "F"; "I"] ->
  get_conventional spglib cell atoms cv arg = Ok (cc, ca) -> cubic cc ->
  equivalent_names spglib cell atoms arg cv /\ path_on_faces spglib cell atoms arg cv.
Proof.
  intros D L F C GC SH. sym_start_h D L GC s p.
  destruct SH as ((RA & E1) & E2). destruct (box_of _ _ P RA) as (B & PA & PB & PC). destruct (params_norms _ _ P) as (N1 & N2 & N3).
  assert (pb p = pa p) by congruence. assert (pc p = pa p) by congruence. rewrite H, H0 in *.
  assert (HA : pa p <> 0) by lra.
  destruct C as [C|[C|[C|[]]]]; symmetry in C; matrix_of M L F C; table_points D F C P S TP;
  first
  [ apply (facts_of _ _ planes_H69cP _ _ PT); [checked|]; apply (sym_H69cP r _ (pa p) _ DR PA (met_P cc r _ _ _ HA HA HA B R) TP)
  | apply (facts_of _ _ planes_H70cF _ _ PT); [checked|]; apply (sym_H70cF r _ (pa p) _ DR PA (proj1 (met_F cc r _ _ _ HA HA HA B R)) TP)
  | apply (facts_of _ _ planes_H71cI _ _ PT); [checked|]; apply (sym_H71cI r _ (pa p) _ DR PA (met_cI cc r _ HA B R) TP) ].
Qed.
Lemma hpkot_tetragonal spglib cell atoms arg cv d cc ca :
  obtain_data spglib cell atoms arg = Ok d -> lower cv = "hpkot" -> crystal_family d = "t" -> In (centring_type d) ["P"; "I"] ->
  get_conventional spglib cell atoms cv arg = Ok (cc, ca) -> tetragonal cc ->
  equivalent_names spglib cell atoms arg cv /\ path_on_faces spglib cell atoms arg cv.
Proof.
  intros D L F C GC SH. sym_start_h D L GC s p.
  destruct SH as (RA & E1). destruct (box_of _ _ P RA) as (B & PA & PB & PC). destruct (params_norms _ _ P) as (N1 & N2 & N3).
  assert (H : pb p = pa p) by congruence. rewrite H in *.
  assert (HA : pa p <> 0) by lra. assert (HC : pc p <> 0) by lra.
  destruct C as [C|[C|[]]]; symmetry in C; matrix_of M L F C.
  - table_points D F C P S TP. apply (facts_of _ _ planes_H72tP _ _ PT); [checked|]. apply (sym_H72tP r _ (pa p) (pc p) _ DR PA PC (met_P cc r _ _ _ HA HA HC B R) TP).
  - destruct (C40_tetragonal _ _ _ _ _ _ _ (obtain_again _ _ _ _ _ D) F C HP) as (X & Y). rewrite S in X, Y. clear S.
    unfold lattice_type in TP. rewrite F, C in TP. destruct (Rle_dec (pc p) (pa p)) as [LE|GT].
    + specialize (X LE). injection X as ->. points_of TP P. apply (facts_of _ _ planes_H73tI _ _ PT); [checked|].
      apply (sym_H73tI r _ (pa p) (pc p) _ DR PA PC (met_tI cc r _ _ HA HC B R) TP).
    + specialize (Y GT). injection Y as ->. points_of TP P. apply (facts_of _ _ planes_H74tI _ _ PT); [checked|].
      apply (sym_H74tI r _ (pa p) (pc p) _ DR PA PC (proj1 (met_I cc r _ _ _ HA HA HC B R)) TP).
Qed.
Lemma hpkot_orthorhombic spglib cell atoms arg cv d cc ca :
  obtain_data spglib cell atoms arg = Ok d -> lower cv = "hpkot" -> crystal_family d = "o" -> In (centring_type d) ["P"; "F"; "I"; "C"; "A"] ->
  get_conventional spglib cell atoms cv arg = Ok (cc, ca) -> right_angles cc ->
  equivalent_names spglib cell atoms arg cv /\ path_on_faces spglib cell atoms arg cv.
Proof.
  intros D L F C GC RA. sym_start_h D L GC s p.
  destruct (box_of _ _ P RA) as (B & PA & PB & PC). destruct (params_norms _ _ P) as (N1 & N2 & N3).
  assert (HA : pa p <> 0) by lra. assert (HB : pb p <> 0) by lra. assert (HC : pc p <> 0) by lra.
  destruct C as [C|[C|[C|[C|[C|[]]]]]]; symmetry in C; matrix_of M L F C.
  - table_points D F C P S TP. apply (facts_of _ _ planes_H75oP _ _ PT); [checked|].
    apply (sym_H75oP r _ (pa p) (pb p) (pc p) _ DR PA PB PC (met_P cc r _ _ _ HA HB HC B R) TP).
  - destruct (C40_orthorhombic_F _ _ _ _ _ _ _ (obtain_again _ _ _ _ _ D) F C HP) as (X & Y & Z & _). rewrite S in X, Y, Z. unfold inverse_square in *.
    destruct (met_F cc r _ _ _ HA HB HC B R) as (M1 & M2 & M3).
    unfold lattice_type in TP. rewrite F, C in TP.
    destruct (Rlt_dec (/ (pb p * pb p) + / (pc p * pc p)) (/ (pa p * pa p))) as [Q1|Q1];
      [|destruct (Rlt_dec (/ (pa p * pa p) + / (pb p * pb p)) (/ (pc p * pc p))) as [Q2|Q2]].
    + apply X in Q1 as E. injection E as ->. points_of TP P. apply (facts_of _ _ planes_H76oF _ _ PT); [checked|]. apply (sym_H76oF r _ (pa p) (pb p) (pc p) _ DR PA PB PC M2 TP).
    + apply Y in Q2 as E. injection E as ->. points_of TP P. apply (facts_of _ _ planes_H77oF _ _ PT); [checked|]. apply (sym_H77oF r _ (pa p) (pb p) (pc p) _ DR PA PB PC M3 TP).
    + assert (E : Ok s = Ok "oF3") by (apply Z; lra). injection E as ->. points_of TP P. apply (facts_of _ _ planes_H78oF _ _ PT); [checked|].
      apply (sym_H78oF r _ (pa p) (pb p) (pc p) _ DR PA PB PC M1 TP).
  - destruct (C40_orthorhombic_I _ _ _ _ _ _ _ (obtain_again _ _ _ _ _ D) F C HP) as (_ & _ & _ & W). rewrite S in W.
    destruct (met_I cc r _ _ _ HA HB HC B R) as (M1 & M2 & M3). unfold lattice_type in TP. rewrite F, C in TP.
    destruct W as [W|[W|W]]; injection W as ->; points_of TP P.
    + apply (facts_of _ _ planes_H79oI _ _ PT); [checked|]. apply (sym_H79oI r _ (pa p) (pb p) (pc p) _ DR PA PB PC M1 TP).
    + apply (facts_of _ _ planes_H80oI _ _ PT); [checked|]. apply (sym_H80oI r _ (pa p) (pb p) (pc p) _ DR PA PB PC M2 TP).
    + apply (facts_of _ _ planes_H81oI _ _ PT); [checked|]. apply (sym_H81oI r _ (pa p) (pb p) (pc p) _ DR PA PB PC M3 TP).
  - destruct (C40_orthorhombic_faces _ _ _ _ _ _ _ (obtain_again _ _ _ _ _ D) F HP) as (X & _). destruct (X C) as (Y & Z). rewrite S in Y, Z.
    destruct (met_C cc r _ _ _ HA HB HC B R) as (M1 & M2). unfold lattice_type in TP. rewrite F, C in TP.
    destruct (Rle_dec (pa p) (pb p)) as [LE|GT].
    + specialize (Y LE). injection Y as ->. points_of TP P. apply (facts_of _ _ planes_H82oC _ _ PT); [checked|]. apply (sym_H82oC r _ (pa p) (pb p) (pc p) _ DR PA PB PC M1 TP).
    + specialize (Z GT). injection Z as ->. points_of TP P. apply (facts_of _ _ planes_H83oC _ _ PT); [checked|]. apply (sym_H83oC r _ (pa p) (pb p) (pc p) _ DR PA PB PC M2 TP).
  - destruct (C40_orthorhombic_faces _ _ _ _ _ _ _ (obtain_again _ _ _ _ _ D) F HP) as (_ & X). destruct (X C) as (Y & Z). rewrite S in Y, Z.
    destruct (met_A cc r _ _ _ HA HB HC B R) as (M1 & M2). unfold lattice_type in TP. rewrite F, C in TP.
    destruct (Rle_dec (pb p) (pc p)) as [LE|GT].
    + specialize (Y LE). injection Y as ->. points_of TP P. apply (facts_of _ _ planes_H82oA _ _ PT); [checked|]. apply (sym_H82oA r _ (pa p) (pb p) (pc p) _ DR PA PB PC M1 TP).
    + specialize (Z GT). injection Z as ->. points_of TP P. apply (facts_of _ _ planes_H83oA _ _ PT); [checked|]. apply (sym_H83oA r _ (pa p) (pb p) (pc p) _ DR PA PB PC M2 TP).
Qed.
Lemma hpkot_hexagonal spglib cell atoms arg cv d cc ca :
  obtain_data spglib cell atoms arg = Ok d -> lower cv = "hpkot" -> crystal_family d = "h" -> In (centring_type d) ["P"; "R"] ->
  get_conventional spglib cell atoms cv arg = Ok (cc, ca) -> hexagonal cc ->
  equivalent_names spglib cell atoms arg cv /\ path_on_faces spglib cell atoms arg cv.
Proof.
  intros D L F C GC SH. sym_start_h D L GC s p.
  destruct (hexagonal_gram _ _ P SH) as (B & PA & PC). assert (HA : pa p <> 0) by lra. assert (HC : pc p <> 0) by lra.
  destruct C as [C|[C|[]]]; symmetry in C; matrix_of M L F C.
  - table_points D F C P S TP; (apply (facts_of _ _ planes_H84hP _ _ PT); [checked|]; apply (sym_H84hP r _ (pa p) (pc p) _ DR PA PC (met_hP cc r _ _ HA HC B R) TP)).
  - destruct (C40_rhombohedral _ _ _ _ _ _ _ (obtain_again _ _ _ _ _ D) F C HP) as (V1 & V2). rewrite S in V1, V2.
    destruct (met_R cc r _ _ HA HC B R) as (M1 & M2). unfold lattice_type in TP. rewrite F, C in TP.
    destruct (Rle_dec (3 * (pa p * pa p)) (2 * (pc p * pc p))) as [LE|GT].
    + specialize (V1 LE). assert (s = "hR1") by congruence. subst s. points_of TP P. apply (facts_of _ _ planes_H85hR _ _ PT); [checked|].
      apply (sym_H85hR r _ (pa p) (pc p) _ DR PA PC M1 TP).
    + specialize (V2 GT). assert (s = "hR2") by congruence. subst s. points_of TP P. apply (facts_of _ _ planes_H86hR _ _ PT); [checked|].
      apply (sym_H86hR r _ (pa p) (pc p) _ DR PA PC M2 TP).
Qed.
Lemma hpkot_monoclinic spglib cell atoms arg cv d cc ca :
  obtain_data spglib cell atoms arg = Ok d -> lower cv = "hpkot" -> crystal_family d = "m" -> In (centring_type d) ["P"; "C"] ->
  get_conventional spglib cell atoms cv arg = Ok (cc, ca) -> monoclinic_b cc ->
  equivalent_names spglib cell atoms arg cv /\ path_on_faces spglib cell atoms arg cv.
Proof.
  intros D L F C GC SH. sym_start_h D L GC sy p.
  assert (DC := det_prim _ _ _ R). destruct (monoclinic_b_gram _ _ P DC SH) as (B & PA & PB & PC & PS & PQ & D1 & D3 & D13).
  assert (HA : pa p <> 0) by lra. assert (HB : pb p <> 0) by lra. assert (HC : pc p <> 0) by lra. assert (HS : sin (pbeta p * TORADIANS) <> 0) by lra.
  destruct C as [C|[C|[]]]; symmetry in C; matrix_of M L F C.
  - table_points D F C P S TP. apply (facts_of _ _ planes_H87mP _ _ PT); [checked|].
    apply (sym_H87mP r _ (pa p) (pb p) (pc p) (pbeta p) _ DR PA PB PC HS (met_mP cc r _ _ _ _ _ HA HB HC HS PQ B R) TP).
  - destruct (met_mC cc r _ _ _ _ _ HA HB HC HS PQ B R) as (M1 & M2 & M3).
    destruct (C40_monoclinic _ _ _ _ _ _ _ (obtain_again _ _ _ _ _ D) F C HP) as (X & Y & Z). rewrite S in X, Y, Z.
    unfold lattice_type in TP. rewrite F, C in TP.
    match type of Y with _ <-> _ /\ ?x <= 1 => destruct (Rle_dec x 1) as [Q2|Q2] end;
    (destruct (Rle_dec (pb p) (pa p * sin (pbeta p * TORADIANS))) as [Q1|Q1]; [apply X in Q1 as E; injection E as ->; points_of TP P;
      apply (facts_of _ _ planes_H88mC _ _ PT); [checked|]; apply (sym_H88mC r _ (pa p) (pb p) (pc p) (pbeta p) _ DR PA PB PC HS M1 TP)|]).
    + assert (E : Ok sy = Ok "mC2") by (apply Y; lra). injection E as ->. points_of TP P. apply (facts_of _ _ planes_H89mC _ _ PT); [checked|].
      apply (sym_H89mC r _ (pa p) (pb p) (pc p) (pbeta p) _ DR PA PB PC HS M2 TP).
    + assert (E : Ok sy = Ok "mC3") by (apply Z; lra). injection E as ->. points_of TP P. apply (facts_of _ _ planes_H90mC _ _ PT); [checked|].
      apply (sym_H90mC r _ (pa p) (pb p) (pc p) (pbeta p) _ DR PA PB PC HS M3 TP).
Qed.
Lemma hpkot_triclinic spglib cell atoms arg cv d :
  obtain_data spglib cell atoms arg = Ok d -> lower cv = "hpkot" -> crystal_family d = "a" -> centring_type d = "P" ->
  equivalent_names spglib cell atoms arg cv /\ path_on_faces spglib cell atoms arg cv.
Proof.
  intros D L F C. apply (sym_lift _ _ _ _ _ _ D). intros cc ca pts0 path0 m r CV G T M R.
  destruct (hpkot_table_inv _ _ _ _ _ _ _ _ _ L G T) as (s & p & S & TP & P & HP). assert (PT := hpkot_path _ _ _ _ _ _ _ _ L T S). assert (DR := rec_det _ _ R).
  matrix_of M L F C. apply tP_id in R.
  assert (W : s = "aP2" \/ s = "aP3").
  { assert (Q : exists q, get_params r = Ok q).
    { unfold hpkot_get_extended_bl_symbol in S. rewrite (obtain_again _ _ _ _ _ D) in S. cbn [bind] in S. cbv zeta in S. unfold lattice_type in S. rewrite F, C in S.
      cbn [mem existsb String.eqb Ascii.eqb Bool.eqb orb String.append] in S. destruct HP as ((ca1 & HG) & HPP). rewrite HG in S. cbn [bind] in S. rewrite HPP in S. cbn [bind] in S.
      rewrite R in S. cbn [bind] in S. apply bind_ok in S. destruct S as (q & Q & _). eauto. }
    destruct Q as (q & Q). destruct (C40_triclinic _ _ _ _ _ _ _ _ _ (obtain_again _ _ _ _ _ D) F C HP R Q) as (_ & _ & W). rewrite S in W.
    destruct W as [W|W]; [left|right]; congruence. }
  unfold lattice_type in TP. rewrite F, C in TP. destruct W as [->| ->]; points_of TP P.
  - apply (facts_of _ _ planes_H91aP _ _ PT); [checked|]. apply sym_H91aP; auto.
  - apply (facts_of _ _ planes_H92aP _ _ PT); [checked|]. apply sym_H92aP; auto.
Qed.

(* ---------- SC ---------- *)
Ltac sym_start_s D L GC s p :=
  apply (sym_lift _ _ _ _ _ _ D); intros cc0 ca0 pts0 path0 m r CV G T M R;
  match goal with T : table_of _ _ _ _ _ = Ok (?pts0, ?path0), G : get_conventional _ _ _ (lower _) (Data _) = Ok (?cc0, _), CV : In (lower _) _ |- _ =>
    assert (EQ := same_conventional _ _ _ _ _ _ _ _ _ _ D CV GC G); subst cc0; destruct (sc_table_inv _ _ _ _ _ _ _ _ _ L G T) as (s & p & S & TP & P & HP);
    assert (PT := sc_path _ _ _ _ _ _ _ _ L T S) end;
  assert (DR := rec_det _ _ R).
(* lattices with one variation *)
Ltac one_variation D F C S PT := let E := fresh "E" in let LT := fresh "LT" in
  assert (LT := f_equal2 String.append F C : lattice_type _ = _); cbn [String.append] in LT;
  match type of LT with lattice_type ?d = ?l => let v := eval vm_compute in (lookup l SC_BRAVAIS_LATTICE_SHORT_NAMES) in
    match v with Some ?n => match type of S with _ = Ok ?s =>
      assert (E : s = Some n) by (apply (single_variation _ _ _ _ _ _ n (obtain_again _ _ _ _ _ D)) in S; [exact S|rewrite LT; reflexivity|rewrite LT; reflexivity]);
      rewrite E in PT; clear E LT end end end.
Lemma sc_cubic spglib cell atoms arg cv d cc ca :
  obtain_data spglib cell atoms arg = Ok d -> lower cv = "sc" -> crystal_family d = "c" -> In (centring_type d) ["P"; "F"; "I"] ->
  get_conventional spglib cell atoms cv arg = Ok (cc, ca) -> cubic cc ->
  equivalent_names spglib cell atoms arg cv /\ path_on_faces spglib cell atoms arg cv.
Proof.
  intros D L F C GC SH. sym_start_s D L GC s p.
  destruct SH as ((RA & E1) & E2). destruct (box_of _ _ P RA) as (B & PA & PB & PC). destruct (params_norms _ _ P) as (N1 & N2 & N3).
  assert (pb p = pa p) by congruence. assert (pc p = pa p) by congruence. rewrite H, H0 in *.
  assert (HA : pa p <> 0) by lra.
  destruct C as [C|[C|[C|[]]]]; symmetry in C; one_variation D F C S PT; matrix_of M L F C; sc_points_of TP P F C.
  - apply (facts_of _ _ planes_S2cP _ _ PT); [checked|]; apply (sym_S2cP r _ (pa p) _ DR PA (met_P cc r _ _ _ HA HA HA B R) TP).
  - apply (facts_of _ _ planes_S3cF _ _ PT); [checked|]; apply (sym_S3cF r _ (pa p) _ DR PA (proj1 (met_F cc r _ _ _ HA HA HA B R)) TP).
  - apply (facts_of _ _ planes_S4cI _ _ PT); [checked|]; apply (sym_S4cI r _ (pa p) _ DR PA (met_cI cc r _ HA B R) TP).
Qed.
Lemma sc_tetragonal spglib cell atoms arg cv d cc ca :
  obtain_data spglib cell atoms arg = Ok d -> lower cv = "sc" -> crystal_family d = "t" -> In (centring_type d) ["P"; "I"] ->
  get_conventional spglib cell atoms cv arg = Ok (cc, ca) -> tetragonal cc ->
  equivalent_names spglib cell atoms arg cv /\ path_on_faces spglib cell atoms arg cv.
Proof.
  intros D L F C GC SH. sym_start_s D L GC s p.
  destruct SH as (RA & E1). destruct (box_of _ _ P RA) as (B & PA & PB & PC). destruct (params_norms _ _ P) as (N1 & N2 & N3).
  assert (H : pb p = pa p) by congruence. rewrite H in *.
  assert (HA : pa p <> 0) by lra. assert (HC : pc p <> 0) by lra.
  destruct C as [C|[C|[]]]; symmetry in C.
  - one_variation D F C S PT; matrix_of M L F C; sc_points_of TP P F C. apply (facts_of _ _ planes_S5tP _ _ PT); [checked|].
    apply (sym_S5tP r _ (pa p) (pc p) _ DR PA PC (met_P cc r _ _ _ HA HA HC B R) TP).
  - matrix_of M L F C; sc_points_of TP P F C. destruct (is_variation s "BCT1") eqn:V1; [|destruct (is_variation s "BCT2") eqn:V2; [|discriminate]].
    + apply is_variation_true in V1. subst s. apply (facts_of _ _ planes_S6tI _ _ PT); [checked|].
      apply (sym_S6tI r _ (pa p) (pc p) _ DR PA PC (met_tI cc r _ _ HA HC B R) TP).
    + apply is_variation_true in V2. subst s. apply (facts_of _ _ planes_S7tI _ _ PT); [checked|].
      apply (sym_S7tI r _ (pa p) (pc p) _ DR PA PC (proj1 (met_I cc r _ _ _ HA HA HC B R)) TP).
Qed.
Lemma sc_orthorhombic spglib cell atoms arg cv d cc ca :
  obtain_data spglib cell atoms arg = Ok d -> lower cv = "sc" -> crystal_family d = "o" -> In (centring_type d) ["P"; "F"; "I"; "C"; "A"] ->
  get_conventional spglib cell atoms cv arg = Ok (cc, ca) -> right_angles cc ->
  equivalent_names spglib cell atoms arg cv /\ path_on_faces spglib cell atoms arg cv.
Proof.
  intros D L F C GC RA. sym_start_s D L GC s p.
  destruct (box_of _ _ P RA) as (B & PA & PB & PC). destruct (params_norms _ _ P) as (N1 & N2 & N3).
  assert (HA : pa p <> 0) by lra. assert (HB : pb p <> 0) by lra. assert (HC : pc p <> 0) by lra.
  destruct C as [C|[C|[C|[C|[C|[]]]]]]; symmetry in C.
  - one_variation D F C S PT; matrix_of M L F C; sc_points_of TP P F C. apply (facts_of _ _ planes_S8oP _ _ PT); [checked|].
    apply (sym_S8oP r _ (pa p) (pb p) (pc p) _ DR PA PB PC (met_P cc r _ _ _ HA HB HC B R) TP).
  - matrix_of M L F C; sc_points_of TP P F C. destruct (met_F cc r _ _ _ HA HB HC B R) as (M1 & M2 & M3).
    destruct (one_of s ["ORCF1"; "ORCF3"]) eqn:V1; [|destruct (is_variation s "ORCF2") eqn:V2; [|discriminate]].
    + apply one_of_true in V1. destruct V1 as (v & [<-|[<-|[]]] & ->); (apply (facts_of _ _ planes_S9oF _ _ PT); [checked|]; apply (sym_S9oF r _ (pa p) (pb p) (pc p) _ DR PA PB PC M2 TP)).
    + apply is_variation_true in V2. subst s. apply (facts_of _ _ planes_S10oF _ _ PT); [checked|]. apply (sym_S10oF r _ (pa p) (pb p) (pc p) _ DR PA PB PC M1 TP).
  - one_variation D F C S PT; matrix_of M L F C; sc_points_of TP P F C. destruct (met_I cc r _ _ _ HA HB HC B R) as (M1 & M2 & M3).
    apply (facts_of _ _ planes_S11oI _ _ PT); [checked|]. apply (sym_S11oI r _ (pa p) (pb p) (pc p) _ DR PA PB PC M1 TP).
  - one_variation D F C S PT; matrix_of M L F C; sc_points_of TP P F C. destruct (met_C cc r _ _ _ HA HB HC B R) as (M1 & M2).
    apply (facts_of _ _ planes_S12oC _ _ PT); [checked|]. apply (sym_S12oC r _ (pa p) (pb p) (pc p) _ DR PA PB PC M1 TP).
  - one_variation D F C S PT; matrix_of M L F C; sc_points_of TP P F C. destruct (met_C cc r _ _ _ HA HB HC B R) as (M1 & M2).
    apply (facts_of _ _ planes_S12oC _ _ PT); [checked|]. apply (sym_S12oC r _ (pa p) (pb p) (pc p) _ DR PA PB PC M1 TP).
Qed.
Lemma sc_hexagonal spglib cell atoms arg cv d cc ca :
  obtain_data spglib cell atoms arg = Ok d -> lower cv = "sc" -> crystal_family d = "h" -> centring_type d = "P" ->
  get_conventional spglib cell atoms cv arg = Ok (cc, ca) -> hexagonal cc ->
  equivalent_names spglib cell atoms arg cv /\ path_on_faces spglib cell atoms arg cv.
Proof.
  intros D L F C GC SH. sym_start_s D L GC s p.
  destruct (hexagonal_gram _ _ P SH) as (B & PA & PC). assert (HA : pa p <> 0) by lra. assert (HC : pc p <> 0) by lra.
  one_variation D F C S PT; matrix_of M L F C; sc_points_of TP P F C. apply (facts_of _ _ planes_S13hP _ _ PT); [checked|].
  apply (sym_S13hP r _ (pa p) (pc p) _ DR PA PC (met_hP cc r _ _ HA HC B R) TP).
Qed.
Lemma sc_rhombohedral spglib cell atoms arg cv d cc ca :
  obtain_data spglib cell atoms arg = Ok d -> lower cv = "sc" -> crystal_family d = "h" -> centring_type d = "R" ->
  get_conventional spglib cell atoms cv arg = Ok (cc, ca) -> rhombohedral_shape cc ->
  equivalent_names spglib cell atoms arg cv /\ path_on_faces spglib cell atoms arg cv.
Proof.
  intros D L F C GC (NB & NC & X & Y). sym_start_s D L GC s p.
  matrix_of M L F C; sc_points_of TP P F C.
  pose proof P as P'. apply get_params_inv in P'. destruct P' as (BG & E).
  destruct (get_params_ok cc) as (p' & P1 & (MA & MB & MC & RA & _ & _ & Z & _ & _)); try apply BG. assert (p' = p) by congruence. subst p'. clear E BG P1.
  destruct (params_pos _ _ P) as (PA & _ & _). set (q := cos (palpha p * TORADIANS)) in *.
  assert (EB : pb p = pa p) by congruence. assert (EC : pc p = pa p) by congruence. rewrite EB, EC in Z.
  assert (D1 : dot (row1 cc) (row1 cc) = pa p * pa p) by (rewrite <- norm_sqr, MA; auto).
  assert (D2 : dot (row2 cc) (row2 cc) = pa p * pa p) by (rewrite <- norm_sqr, MB, EB; auto).
  assert (D3 : dot (row3 cc) (row3 cc) = pa p * pa p) by (rewrite <- norm_sqr, MC, EC; auto).
  assert (Z12 : dot (row1 cc) (row2 cc) = pa p * pa p * q) by congruence.
  assert (Z13 : dot (row1 cc) (row3 cc) = pa p * pa p * q) by congruence.
  assert (B : gram cc = M3 (V3 (pa p * pa p) (pa p * pa p * q) (pa p * pa p * q)) (V3 (pa p * pa p * q) (pa p * pa p) (pa p * pa p * q)) (V3 (pa p * pa p * q) (pa p * pa p * q) (pa p * pa p)))
    by (rewrite gram_dots, D1, D2, D3, Z12, Z13, Z; reflexivity).
  assert (DC := det_prim _ _ _ R).
  assert (DD : det cc * det cc = pa p * pa p * (pa p * pa p) * (pa p * pa p) * ((1 - q) * (1 - q) * (1 + 2 * q))).
  { rewrite gram_det. cbv zeta. rewrite D1, D2, D3, Z12, Z13, Z. ring. }
  assert (N0 : det cc * det cc <> 0) by (intros E; apply Rmult_integral in E; tauto).
  assert (HA : pa p <> 0) by lra.
  assert (N1 : 1 - q <> 0) by (intros E; apply N0; rewrite DD, E; ring). assert (N2 : 1 + 2 * q <> 0) by (intros E; apply N0; rewrite DD, E; ring).
  assert (N1' : q <> 1) by (intros E; apply N1; rewrite E; ring).
  destruct (met_hR cc r _ _ HA N1 N2 B R) as (M1 & M2).
  destruct (is_variation s "RHL1") eqn:W1; [|destruct (is_variation s "RHL2") eqn:W2; [|discriminate]].
  - apply is_variation_true in W1. subst s. apply (facts_of _ _ planes_S14hR _ _ PT); [checked|]. apply (sym_S14hR r _ (pa p) (palpha p) _ DR PA N1' N2 M1 TP).
  - apply is_variation_true in W2. subst s. apply (facts_of _ _ planes_S15hR _ _ PT); [checked|]. apply (sym_S15hR r _ (pa p) (palpha p) _ DR PA N1' N2 M2 TP).
Qed.
Lemma sc_monoclinic spglib cell atoms arg cv d cc ca :
  obtain_data spglib cell atoms arg = Ok d -> lower cv = "sc" -> crystal_family d = "m" -> In (centring_type d) ["P"; "C"] ->
  get_conventional spglib cell atoms cv arg = Ok (cc, ca) -> monoclinic_a cc ->
  equivalent_names spglib cell atoms arg cv /\ path_on_faces spglib cell atoms arg cv.
Proof.
  intros D L F C GC SH. sym_start_s D L GC sv p.
  assert (DC := det_prim _ _ _ R). destruct (monoclinic_a_gram _ _ P DC SH) as (B & PA & PB & PC & PS & PQ & D2 & D3 & D23).
  assert (HA : pa p <> 0) by lra. assert (HB : pb p <> 0) by lra. assert (HC : pc p <> 0) by lra. assert (HS : sin (palpha p * TORADIANS) <> 0) by lra.
  destruct C as [C|[C|[]]]; symmetry in C.
  - one_variation D F C S PT; matrix_of M L F C; sc_points_of TP P F C. apply (facts_of _ _ planes_S16mP _ _ PT); [checked|].
    apply (sym_S16mP r _ (pa p) (pb p) (pc p) (palpha p) _ DR PA PB PC HS (met_SmP cc r _ _ _ _ _ HA HB HC HS PQ B R) TP).
  - matrix_of M L F C; sc_points_of TP P F C. destruct (met_SmC cc r _ _ _ _ _ HA HB HC HS PQ B R) as (M1 & M2 & M3).
    destruct (one_of sv ["MCLC1"; "MCLC2"]) eqn:W1; [|destruct (one_of sv ["MCLC3"; "MCLC4"]) eqn:W2; [|destruct (is_variation sv "MCLC5") eqn:W3; [|discriminate]]].
    + apply one_of_true in W1. destruct W1 as (v & [<-|[<-|[]]] & ->);
        (apply (facts_of _ _ planes_S17mC _ _ PT); [checked|]; apply (sym_S17mC r _ (pa p) (pb p) (pc p) (palpha p) _ DR PA PB PC HS M1 TP)).
    + apply one_of_true in W2. destruct W2 as (v & [<-|[<-|[]]] & ->);
        (apply (facts_of _ _ planes_S18mC _ _ PT); [checked|]; apply (sym_S18mC r _ (pa p) (pb p) (pc p) (palpha p) _ DR PA PB PC HS M2 TP)).
    + apply is_variation_true in W3. subst sv. apply (facts_of _ _ planes_S19mC _ _ PT); [checked|]. apply (sym_S19mC r _ (pa p) (pb p) (pc p) (palpha p) _ DR PA PB PC HS M3 TP).
Qed.
Lemma sc_triclinic spglib cell atoms arg cv d :
  obtain_data spglib cell atoms arg = Ok d -> lower cv = "sc" -> crystal_family d = "a" -> centring_type d = "P" ->
  equivalent_names spglib cell atoms arg cv /\ path_on_faces spglib cell atoms arg cv.
Proof.
  intros D L F C. apply (sym_lift _ _ _ _ _ _ D). intros cc ca pts0 path0 m r CV G T M R.
  destruct (sc_table_inv _ _ _ _ _ _ _ _ _ L G T) as (s & p & S & TP & P & HP). assert (PT := sc_path _ _ _ _ _ _ _ _ L T S). assert (DR := rec_det _ _ R).
  sc_points_of TP P F C.
  destruct (one_of s ["TRI1a"; "TRI2a"]) eqn:W1; [|destruct (one_of s ["TRI1b"; "TRI2b"]) eqn:W2; [|discriminate]].
  - apply one_of_true in W1. destruct W1 as (v & [<-|[<-|[]]] & ->); (apply (facts_of _ _ planes_S20aP _ _ PT); [checked|]; apply sym_S20aP; auto).
  - apply one_of_true in W2. destruct W2 as (v & [<-|[<-|[]]] & ->); (apply (facts_of _ _ planes_S21aP _ _ PT); [checked|]; apply sym_S21aP; auto).
Qed.

(* ---------- the claims ---------- *)
(* the shape that the conventional cell of a crystal has, by its crystal family and centring *)
Definition conventional_shape (cv : string) (d : spglib_data) (cc : mat) : Prop :=
  let f := crystal_family d in let c := centring_type d in
  f = "c" /\ In c ["P"; "F"; "I"] /\ cubic cc \/
  f = "t" /\ In c ["P"; "I"] /\ tetragonal cc \/
  f = "o" /\ In c ["P"; "F"; "I"; "C"; "A"] /\ right_angles cc \/
  f = "h" /\ c = "P" /\ hexagonal cc \/
  f = "h" /\ c = "R" /\ (if String.eqb (lower cv) "sc" then rhombohedral_shape cc else hexagonal cc) \/
  f = "m" /\ In c ["P"; "C"] /\ (if String.eqb (lower cv) "sc" then monoclinic_a cc else monoclinic_b cc) \/
  f = "a" /\ c = "P".
Lemma symmetry_claims spglib cell atoms arg cv d cc ca : obtain_data spglib cell atoms arg = Ok d -> In (lower cv) ["hpkot"; "sc"] ->
  get_conventional spglib cell atoms cv arg = Ok (cc, ca) -> conventional_shape cv d cc ->
  equivalent_names spglib cell atoms arg cv /\ path_on_faces spglib cell atoms arg cv.
Proof.
  intros D [L|[L|[]]] GC SH; symmetry in L; unfold conventional_shape in SH; rewrite L in SH; cbn [String.eqb Ascii.eqb Bool.eqb] in SH.
  - destruct SH as [(F & C & S)|[(F & C & S)|[(F & C & S)|[(F & C & S)|[(F & C & S)|[(F & C & S)|(F & C)]]]]]].
    + eapply hpkot_cubic; eauto.
    + eapply hpkot_tetragonal; eauto.
    + eapply hpkot_orthorhombic; eauto.
    + eapply hpkot_hexagonal; eauto. rewrite C. cbn. auto.
    + eapply hpkot_hexagonal; eauto. rewrite C. cbn. auto.
    + eapply hpkot_monoclinic; eauto.
    + eapply hpkot_triclinic; eauto.
  - destruct SH as [(F & C & S)|[(F & C & S)|[(F & C & S)|[(F & C & S)|[(F & C & S)|[(F & C & S)|(F & C)]]]]]].
    + eapply sc_cubic; eauto.
    + eapply sc_tetragonal; eauto.
    + eapply sc_orthorhombic; eauto.
    + eapply sc_hexagonal; eauto.
    + eapply sc_rhombohedral; eauto.
    + eapply sc_monoclinic; eauto.
    + eapply sc_triclinic; eauto.
Qed.
Theorem C70_equivalent_names : forall spglib cell atoms arg cv d cc ca, obtain_data spglib cell atoms arg = Ok d -> In (lower cv) ["hpkot"; "sc"] ->
  get_conventional spglib cell atoms cv arg = Ok (cc, ca) -> conventional_shape cv d cc -> equivalent_names spglib cell atoms arg cv.
Proof. intros. eapply (proj1 (symmetry_claims _ _ _ _ _ _ _ _ H H0 H1 H2)). Qed.
Print Assumptions C70_equivalent_names.
Theorem C71_path_on_faces : forall spglib cell atoms arg cv d cc ca, obtain_data spglib cell atoms arg = Ok d -> In (lower cv) ["hpkot"; "sc"] ->
  get_conventional spglib cell atoms cv arg = Ok (cc, ca) -> conventional_shape cv d cc -> path_on_faces spglib cell atoms arg cv.
Proof. intros. eapply (proj2 (symmetry_claims _ _ _ _ _ _ _ _ H H0 H1 H2)). Qed.
Print Assumptions C71_path_on_faces.
(* The steps that avoid GAMMA are on the surface of the zone when both ends are in the zone (C55). *)
Theorem C71_path_on_surface : forall spglib cell atoms arg cv exempt tr path pts pc pa r l x y,
  points_in_zone spglib cell atoms arg cv exempt -> path_on_faces spglib cell atoms arg cv ->
  get_path_and_points spglib cell atoms arg cv tr false = Ok (path, pts) ->
  get_primitive spglib cell atoms cv arg = Ok (pc, pa) -> get_reciprocal pc = Ok r -> get_path_as_list path = Ok l ->
  follows l x y -> x <> "GAMMA" -> y <> "GAMMA" ->
  ~ In x (exempt ++ map (fun s => String.append s "_P") exempt) -> ~ In y (exempt ++ map (fun s => String.append s "_P") exempt) ->
  exists kx ky, In (x, kx) pts /\ In (y, ky) pts /\ forall t, 0 <= t <= 1 -> on_surface r (between kx ky t).
Proof.
  intros spglib cell atoms arg cv exempt time path pts pc pa r l x y Z F P GP R L FO NX NY EX EY.
  destruct (F _ _ _ _ _ _ _ P GP R L x y FO NX NY) as (kx & ky & n & IX & IY & _ & S). exists kx, ky. split; [auto|]. split; [auto|].
  intros t T. apply (S t). destruct (Z _ _ _ _ _ _ P GP R _ _ IX EX) as (ZX & _). destruct (Z _ _ _ _ _ _ P GP R _ _ IY EY) as (ZY & _).
  replace (between kx ky t) with (vadd kx (vscale t (vsub ky kx))); [apply zone_segment; auto|].
  unfold between. destruct kx, ky. vunfold. f_equal; ring.
Qed.
Print Assumptions C71_path_on_surface.
(* Crystals of the plain shapes (C67): no point has to be left out. *)
Theorem C71_plain_shapes : forall spglib cell atoms arg cv d cc ca tr path pts pc pa r l x y,
  obtain_data spglib cell atoms arg = Ok d -> In (lower cv) ["hpkot"; "sc"] ->
  get_conventional spglib cell atoms cv arg = Ok (cc, ca) -> 0 <= symprec d -> plain_shape d cc ->
  get_path_and_points spglib cell atoms arg cv tr false = Ok (path, pts) ->
  get_primitive spglib cell atoms cv arg = Ok (pc, pa) -> get_reciprocal pc = Ok r -> get_path_as_list path = Ok l ->
  follows l x y -> x <> "GAMMA" -> y <> "GAMMA" ->
  exists kx ky, In (x, kx) pts /\ In (y, ky) pts /\ forall t, 0 <= t <= 1 -> on_surface r (between kx ky t).
Proof.
  intros spglib cell atoms arg cv d cc ca time path pts pc pa r l x y D CV GC SP SH P GP R L FO NX NY.
  assert (CS : conventional_shape cv d cc).
  { unfold conventional_shape. destruct SH as [(F & C & H)|[(F & C & H)|[(F & C & H)|(F & C & H)]]]; cbv zeta; [tauto|tauto| |tauto].
    right. right. left. split; [auto|]. split; [cbn in *; tauto|auto]. }
  eapply (C71_path_on_surface spglib cell atoms arg cv []); eauto; [eapply plain_zone; eauto|eapply C71_path_on_faces; eauto].
Qed.
Print Assumptions C71_plain_shapes.
(* The steps that start at GAMMA are strictly inside of the zone up to their end. *)
Theorem C71_inside_from_gamma : forall spglib cell atoms arg cv exempt tr path pts pc pa r y ky t n,
  points_in_zone spglib cell atoms arg cv exempt ->
  get_path_and_points spglib cell atoms arg cv tr false = Ok (path, pts) ->
  get_primitive spglib cell atoms cv arg = Ok (pc, pa) -> get_reciprocal pc = Ok r ->
  In (y, ky) pts -> ~ In y (exempt ++ map (fun s => String.append s "_P") exempt) -> 0 <= t < 1 -> n <> Zv 0 0 0 ->
  dist2 (between vzero ky t) vzero < dist2 (between vzero ky t) (vmat (ofZv n) r).
Proof.
  intros spglib cell atoms arg cv exempt time path pts pc pa r y ky t n Z P GP R I EX T N.
  destruct (Z _ _ _ _ _ _ P GP R _ _ I EX) as (ZK & _). rewrite zone_linear in ZK. specialize (ZK n).
  assert (G : vmat (ofZv n) r <> vzero).
  { intros E. apply N. apply (lin_indep _ _ (rec_det _ _ R)) in E. destruct n as [a b c]. unfold ofZv, vzero in E. cbn [zx zy zz] in E. injection E as E1 E2 E3.
    apply eq_IZR in E1, E2, E3. subst. reflexivity. }
  revert ZK G. generalize (vmat (ofZv n) r). intros g ZK G.
  assert (GG : 0 < dot g g).
  { destruct g as [a b c]. vunfold. assert (X : a <> 0 \/ b <> 0 \/ c <> 0).
    { destruct (Req_dec a 0) as [->|]; auto. destruct (Req_dec b 0) as [->|]; auto. destruct (Req_dec c 0) as [->|]; auto. }
    destruct X as [X|[X|X]]; nra. }
  replace (between vzero ky t) with (vscale t ky) by (unfold between, vzero; destruct ky; vunfold; f_equal; ring).
  assert (X : dist2 (vscale t ky) g = dist2 (vscale t ky) vzero - t * (2 * dot ky g) + dot g g) by (unfold dist2; destruct ky, g; vunfold; ring).
  rewrite X. clear X. assert (t * (2 * dot ky g) <= t * dot g g) by (apply Rmult_le_compat_l; lra). assert (t * dot g g < 1 * dot g g) by (apply Rmult_lt_compat_r; lra). lra.
Qed.
Print Assumptions C71_inside_from_gamma.
