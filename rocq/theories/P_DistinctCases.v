(* P_DistinctCases.v : property C44, crystals that meet the hypotheses, and crystals with two names for one point. *)
From Verif Require Import Base M_Strings M_Dict M_Numerical M_Geometry M_Cell M_Niggli M_Atoms T_Tables T_Points M_Spglib M_Conventional
  M_Primitive M_Variation M_Kpoints M_Path F_Geometry F_Voronoi F_Strings F_Atoms F_Kpoints S_Crystal F_Conventional F_Primitive
  P_Conventional P_Monoclinic P_Primitive P_Variation P_Symbol P_Path S_Zone F_Zone F_ZoneTables F_ZoneTables2 F_ZoneCells P_Zone F_Crystals P_ZoneCases F_Distinct P_Distinct.
Open Scope string_scope.
Open Scope list_scope.
Open Scope R_scope.

(* two names for the same entry of the table are two names for the same point of the crystal *)
Lemma same_point spglib cell atoms arg cv path pts d : get_path_and_points spglib cell atoms arg cv true false = Ok (path, pts) -> obtain_data spglib cell atoms arg = Ok d ->
  (forall pts0 path0, table_of spglib cell atoms d cv = Ok (pts0, path0) -> exists n1 n2 v, n1 <> n2 /\ In (n1, v) pts0 /\ In (n2, v) pts0) ->
  exists n1 n2 k, n1 <> n2 /\ In (n1, k) pts /\ In (n2, k) pts.
Proof.
  intros P D H. destruct (path_inv _ _ _ _ _ _ _ _ _ P) as (d' & pts0 & path0 & pc & pa & r & pts1 & inv & D' & T & _ & _ & _ & Q & _ & E & _).
  assert (d' = d) by congruence. subst d'. destruct (H _ _ T) as (n1 & n2 & v & N & I1 & I2).
  assert (pts = pts1) by (destruct (negb inv); cbn [negb andb] in E; tauto). subst pts1.
  unfold place_points in Q. apply bind_ok in Q. destruct Q as (b & _ & Q). injection Q as <-.
  exists n1, n2, (vmat v r). split; [auto|].
  split; apply in_map_iff; [exists (n1, v)|exists (n2, v)]; auto.
Qed.
(* HPKOT, tI: at a = c the points M and Z0 coincide *)
Theorem C44_hpkot_tI_tie : forall spglib cell atoms arg cv d cc ca p path pts,
  obtain_data spglib cell atoms arg = Ok d -> lower cv = "hpkot" -> crystal_family d = "t" -> centring_type d = "I" ->
  get_conventional spglib cell atoms cv arg = Ok (cc, ca) -> get_params cc = Ok p -> pa p = pc p ->
  get_path_and_points spglib cell atoms arg cv true false = Ok (path, pts) ->
  exists n1 n2 k, n1 <> n2 /\ In (n1, k) pts /\ In (n2, k) pts.
Proof.
  intros spglib cell atoms arg cv d cc ca p path pts D L F C GC PP EQ PATH. apply (same_point _ _ _ _ _ _ _ _ PATH D). intros pts0 path0 T.
  assert (G : get_conventional spglib cell atoms (lower cv) (Data d) = Ok (cc, ca)).
  { rewrite <- conventional_lower by (rewrite L; cbn; auto). unfold get_conventional in GC |- *. rewrite D in GC. rewrite (obtain_again _ _ _ _ _ D). exact GC. }
  destruct (hpkot_table_inv _ _ _ _ _ _ _ _ _ L G T) as (s & p0 & S & TP & P & HP). same_params p. destruct (params_pos _ _ PP) as (PA & _ & PC).
  destruct (C40_tetragonal _ _ _ _ _ _ _ (obtain_again _ _ _ _ _ D) F C HP) as (X & _). rewrite S in X.
  assert (E : Ok s = Ok "tI1") by (apply X; lra). injection E as ->. unfold lattice_type in TP. rewrite F, C in TP. points_of TP PP.
  unfold hpkot_table_73 in TP. destruct (Reqb_spec (pa p) 0); [lra|]. injection TP as <-.
  exists "M", "Z0", (V3 (- 1 / 2) (1 / 2) (1 / 2)). split; [discriminate|]. split; [cbn; auto|]. cbn. do 5 right. left. do 2 f_equal; unfold sq; rewrite <- EQ; field; auto.
Qed.
Print Assumptions C44_hpkot_tI_tie.
(* SC, ORCF3: at 1/a^2 = 1/b^2 + 1/c^2 the points T and X1 coincide *)
Theorem C44_sc_ORCF3_tie : forall spglib cell atoms arg cv d cc ca p path pts,
  obtain_data spglib cell atoms arg = Ok d -> lower cv = "sc" -> crystal_family d = "o" -> centring_type d = "F" ->
  get_conventional spglib cell atoms cv arg = Ok (cc, ca) -> get_params cc = Ok p -> inverse_square (pa p) = inverse_square (pb p) + inverse_square (pc p) ->
  sc_get_variation spglib cell atoms arg = Ok (Some "ORCF3") ->
  get_path_and_points spglib cell atoms arg cv true false = Ok (path, pts) ->
  exists n1 n2 k, n1 <> n2 /\ In (n1, k) pts /\ In (n2, k) pts.
Proof.
  intros spglib cell atoms arg cv d cc ca p path pts D L F C GC PP EQ SV PATH. apply (same_point _ _ _ _ _ _ _ _ PATH D). intros pts0 path0 T.
  assert (G : get_conventional spglib cell atoms (lower cv) (Data d) = Ok (cc, ca)).
  { rewrite <- conventional_lower by (rewrite L; cbn; auto). unfold get_conventional in GC |- *. rewrite D in GC. rewrite (obtain_again _ _ _ _ _ D). exact GC. }
  destruct (sc_table_inv _ _ _ _ _ _ _ _ _ L G T) as (s & p0 & S & TP & P & HP). same_params p. destruct (params_pos _ _ PP) as (PA & PB & PC).
  assert (E : s = Some "ORCF3").
  { unfold sc_get_variation in *. rewrite D in SV. rewrite (obtain_again _ _ _ _ _ D) in S. congruence. }
  subst s. sc_points_of TP PP F C. change (one_of (Some "ORCF3") ["ORCF1"; "ORCF3"]) with true in TP. cbv iota in TP.
  unfold sc_table_9 in TP. destruct (Reqb_spec (sq (pb p)) 0); [discriminate|]. destruct (Reqb_spec (sq (pc p)) 0); [discriminate|]. injection TP as <-.
  assert (ETA : (1 + sq (pa p) / sq (pb p) + sq (pa p) / sq (pc p)) / 4 = 1 / 2).
  { unfold inverse_square in EQ. unfold sq in *. assert (X : pa p * pa p * / (pa p * pa p) = 1) by (apply Rinv_r; nra). rewrite EQ in X. unfold Rdiv. lra. }
  exists "T", "X1", (V3 1 (1 / 2) (1 / 2)). split; [discriminate|]. split; [cbn; tauto|]. cbn [In]. do 6 right. left. rewrite ETA. do 2 f_equal; field.
Qed.
Print Assumptions C44_sc_ORCF3_tie.

Lemma nodup_front {A} (l l2 : list A) : NoDup (l ++ l2) -> NoDup l.
Proof. induction l as [|x l1 IH]; [constructor|]. cbn [app]. intros ND. inversion ND as [|? ? N ND']; subst. constructor; [intros I; apply N, in_or_app; auto|auto]. Qed.
(* a body-centred tetragonal crystal meets the hypotheses of C44_hpkot_tetragonal and C44_sc_tetragonal *)
Example C44_hpkot_tetragonal_case : exists d cell r pts, processed cell d "HPKOT" (mk 2 0 0 0 2 0 0 0 3) r pts /\ centring_type d = "I" /\
  distinct_points None cell one_atom (Data d) "HPKOT" /\ NoDup (map fst pts) /\ (6 < length pts)%nat.
Proof.
  destruct C55_hpkot_tetragonal_case as (d & cell & r & pts & P & F & C & _). exists d, cell, r, pts. split; [exact P|]. split; [exact C|].
  destruct P as (D & (ca & GC) & _ & path & PATH).
  assert (PP : get_params (mk 2 0 0 0 2 0 0 0 3) = Ok (params_val (mk 2 0 0 0 2 0 0 0 3))) by (apply get_params_val, big_diag; lra).
  destruct (norm_diag 2 2 3) as (P1 & P2 & P3 & _); try lra.
  split. { apply (C44_hpkot_tetragonal _ _ _ _ "HPKOT" _ _ _ _ D eq_refl F ltac:(rewrite C; cbn; auto) GC PP). intros _. rewrite P1, P3. lra. }
  destruct (path_inv _ _ _ _ _ _ _ _ _ PATH) as (d' & pts0 & path0 & pc & pa & r' & pts1 & inv & D' & T & K & _ & _ & Q & _ & E & _).
  assert (d' = d) by congruence. subst d'. assert (pts = pts1) by (destruct (negb inv); cbn [negb andb] in E; tauto). subst pts1.
  assert (KK := place_keys _ _ _ _ _ Q). rewrite <- KK in K. split.
  { apply table_ok_spec in K. destruct K as (l & _ & _ & _ & ND & _). unfold with_primes in ND.
    apply nodup_front in ND. exact ND. }
  assert (LE : length pts = length pts0) by (unfold keys in KK; rewrite <- (map_length fst pts), <- (map_length fst pts0), KK; reflexivity). rewrite LE.
  assert (G : get_conventional None cell one_atom (lower "HPKOT") (Data d) = Ok (mk 2 0 0 0 2 0 0 0 3, ca)) by (rewrite <- conventional_lower; [exact GC|cbn; auto]).
  destruct (hpkot_table_inv _ _ _ _ "HPKOT" _ _ _ _ eq_refl G T) as (s & p & S & TP & P' & HP). assert (p = params_val (mk 2 0 0 0 2 0 0 0 3)) by congruence. subst p.
  destruct (C40_tetragonal _ _ _ _ _ _ _ D F C HP) as (_ & X). rewrite S, P1, P3 in X. assert (ES : Ok s = Ok "tI2") by (apply X; lra). injection ES as ->.
  unfold lattice_type in TP. rewrite F, C in TP. points_of TP PP. unfold hpkot_table_74 in TP. rewrite P3 in TP. destruct (Reqb_spec 3 0); [lra|]. injection TP as <-. cbn. lia.
Qed.
Example C44_sc_tetragonal_case : exists d cell r pts, processed cell d "SC" (mk 2 0 0 0 2 0 0 0 3) r pts /\ centring_type d = "I" /\
  distinct_points None cell one_atom (Data d) "SC".
Proof.
  destruct C55_sc_tetragonal_case as (d & cell & r & pts & P & F & C & _). exists d, cell, r, pts. split; [exact P|]. split; [exact C|].
  destruct P as (D & (ca & GC) & _). apply (C44_sc_tetragonal _ _ _ _ "SC" _ _ _ D eq_refl F ltac:(rewrite C; cbn; auto) GC).
Qed.
Example C44_sc_orthorhombic_case : exists d cell r pts, processed cell d "SC" (mk 2 0 0 0 3 0 0 0 5) r pts /\ centring_type d = "F" /\
  distinct_points None cell one_atom (Data d) "SC".
Proof.
  destruct C55_sc_orthorhombic_case as (d & cell & r & pts & P & F & C & _ & SP & V). exists d, cell, r, pts. split; [exact P|]. split; [exact C|].
  destruct P as (D & (ca & GC) & _).
  assert (PP : get_params (mk 2 0 0 0 3 0 0 0 5) = Ok (params_val (mk 2 0 0 0 3 0 0 0 5))) by (apply get_params_val, big_diag; lra).
  apply (C44_sc_orthorhombic _ _ _ _ "SC" _ _ _ _ D eq_refl F ltac:(rewrite C; cbn; auto) GC PP SP). rewrite V. discriminate.
Qed.
(* the crystals with ties exist: a tetragonal crystal with a = c, and a face-centred one with 1/12^2 = 1/15^2 + 1/20^2 *)
Theorem C44_hpkot_tI_refuted : exists d cell path pts, crystal_family d = "t" /\ centring_type d = "I" /\
  get_path_and_points None cell one_atom (Data d) "HPKOT" true false = Ok (path, pts) /\ ~ distinct_points None cell one_atom (Data d) "HPKOT".
Proof.
  set (c := mk 2 0 0 0 2 0 0 0 2). set (zs := [Zv 0 0 0; Zv 1 1 1]). assert (B : big c) by (unfold c; apply big_diag; lra).
  destruct (norm_diag 2 2 2) as (P1 & P2 & P3 & N1 & N2 & N3 & RA); try lra. fold c in P1, P2, P3, N1, N2, N3, RA.
  exists (crystal_data 139 "t" "I" t_I c zs), (mmul (tr t_I) c).
  assert (PR : exists pts0, processed (mmul (tr t_I) c) (crystal_data 139 "t" "I" t_I c zs) "HPKOT" c (rec_of (mmul (tr t_I) c)) (map (fun kv => (fst kv, vmat (snd kv) (rec_of (mmul (tr t_I) c)))) pts0)).
  { eexists. eapply (hpkot_crystal 139 "t" "I" c _ t_I "tI1"); [discriminate|reflexivity|unfold c; det_num|det_num|discriminate|unfold zs; count_points|number| |exact B| |reflexivity].
    + intros HP. destruct (C40_tetragonal _ _ _ _ _ _ _ (crystal_obtain 139 "t" "I" t_I c _ None) eq_refl eq_refl HP) as (X & _). apply X. rewrite P1, P3. lra.
    + unfold hpkot_get_points. rewrite (get_params_val _ B). cbn [bind]. cbv zeta. rewrite P1, P2, P3. cbv [mem existsb String.eqb Ascii.eqb Bool.eqb orb]. unfold hpkot_table_73. repeat reqb0. reflexivity. }
  destruct PR as (pts0 & D & (ca & GC) & _ & path & PATH). eexists path, _. do 2 (split; [reflexivity|]). split; [exact PATH|]. intros X.
  destruct (C44_hpkot_tI_tie _ _ _ _ "HPKOT" _ _ _ _ _ _ D eq_refl eq_refl eq_refl GC (get_params_val _ B) ltac:(rewrite P1, P3; reflexivity) PATH) as (n1 & n2 & k & N & I1 & I2).
  apply N. apply (X _ _ _ PATH _ _ _ I1 I2).
Qed.
Print Assumptions C44_hpkot_tI_refuted.
Theorem C44_sc_ORCF3_refuted : exists d cell path pts, crystal_family d = "o" /\ centring_type d = "F" /\
  sc_get_variation None cell one_atom (Data d) = Ok (Some "ORCF3") /\
  get_path_and_points None cell one_atom (Data d) "SC" true false = Ok (path, pts) /\ ~ distinct_points None cell one_atom (Data d) "SC".
Proof.
  set (c := mk 12 0 0 0 15 0 0 0 20). set (zs := [Zv 0 0 0; Zv 1 0 0; Zv 0 1 0; Zv 0 0 1]). assert (B : big c) by (unfold c; apply big_diag; lra).
  destruct (norm_diag 12 15 20) as (P1 & P2 & P3 & N1 & N2 & N3 & RA); try lra. fold c in P1, P2, P3, N1, N2, N3, RA.
  assert (DC : det c <> 0) by (apply inverse_diag; lra). set (d := crystal_data 69 "o" "F" t_F c zs). set (cell := mmul (tr t_F) c).
  assert (E : sc_conventional_no_hR c "o" "F" (/ 10000) = Ok c).
  { change (sc_conventional_no_hR c "o" "F" (/ 10000)) with (sc_conventional_oPFI c). unfold sc_conventional_oPFI. rewrite (get_params_val _ B). cbn [bind].
    rewrite P1, P2, P3. unfold order_matrix. destruct (Rltb_spec 12 15), (Rltb_spec 15 20); try (exfalso; lra). cbn [andb bind]. unfold c, mk. rewrite tapply_eye. reflexivity. }
  assert (V : sc_params None cell one_atom d c (params_val c) -> sc_get_variation None cell one_atom (Data d) = Ok (Some "ORCF3")).
  { intros HP. assert (SP : 0 <= symprec d) by (cbn; lra).
    destruct (C39_orthorhombic _ _ _ _ _ _ _ (crystal_obtain 69 "o" "F" t_F c _ None) eq_refl eq_refl HP SP) as (_ & _ & V3 & _).
    apply V3. rewrite P1, P2, P3. unfold inverse_square. replace (/ (12 * 12) - / (15 * 15) - / (20 * 20)) with 0 by field. rewrite Rabs_R0. cbn [symprec crystal_data d]. lra. }
  assert (HP : sc_params None cell one_atom d c (params_val c)).
  { split; [|apply get_params_val; exact B]. eexists. apply (crystal_sc 69 "o" "F" t_F c _ "SC" c eq_refl eq_refl E DC). }
  exists d, cell.
  assert (PR : exists pts0, processed cell d "SC" c (rec_of (mmul (tr t_F) c)) (map (fun kv => (fst kv, vmat (snd kv) (rec_of (mmul (tr t_F) c)))) pts0)).
  { eexists. eapply (sc_crystal 69 "o" "F" t_F c _ c t_F zs); [reflexivity|reflexivity|exact E|exact DC|det_num|discriminate|unfold zs; count_points|number|reflexivity|exact B| | | | ].
    + rewrite det_mmul, det_tr. intros Z. apply Rmult_integral in Z. destruct Z as [Z|Z]; [revert Z; det_num|auto].
    + intros _ _ _. apply V. exact HP.
    + unfold sc_get_points. rewrite (get_params_val _ B). cbn [bind]. cbv zeta. rewrite P1, P2, P3.
      match goal with |- context [lookup ?l SC_BRAVAIS_LATTICE_SHORT_NAMES] => change (lookup l SC_BRAVAIS_LATTICE_SHORT_NAMES) with (Some "ORCF") end.
      cbv iota. cbn [String.eqb Ascii.eqb Bool.eqb]. change (one_of (Some "ORCF3") ["ORCF1"; "ORCF3"]) with true. cbv iota. unfold sc_table_9. unfold sq. repeat reqb0. reflexivity.
    + reflexivity. }
  destruct PR as (pts0 & D & (ca & GC) & _ & path & PATH). eexists path, _. do 2 (split; [reflexivity|]). split; [apply V; exact HP|]. split; [exact PATH|]. intros X.
  destruct (C44_sc_ORCF3_tie _ _ _ _ "SC" _ _ _ _ _ _ D eq_refl eq_refl eq_refl GC (get_params_val _ B) ltac:(rewrite P1, P2, P3; unfold inverse_square; field) (V HP) PATH) as (n1 & n2 & k & N & I1 & I2).
  apply N. apply (X _ _ _ PATH _ _ _ I1 I2).
Qed.
Print Assumptions C44_sc_ORCF3_refuted.
