(* P_ZoneCases.v : property C55, crystals that meet the hypotheses, and crystals with points outside the zone. *)
From Verif Require Import Base M_Strings M_Dict M_Numerical M_Geometry M_Cell M_Niggli M_Atoms T_Tables T_Points M_Spglib M_Conventional
  M_Primitive M_Variation M_Kpoints M_Path F_Geometry F_Voronoi F_Strings F_Atoms F_Kpoints S_Crystal F_Conventional F_Primitive
  P_Conventional P_Monoclinic P_Primitive P_Variation P_Symbol P_Path S_Zone F_Zone F_ZoneTables F_ZoneTables2 F_ZoneCells P_Zone F_Crystals.
Open Scope string_scope.
Open Scope list_scope.
Open Scope R_scope.

(* a crystal is processed, and these are its conventional cell, primitive reciprocal cell and points *)
Definition processed (cell : mat) (d : spglib_data) (cv : string) (c r : mat) (pts : dict vec) : Prop :=
  obtain_data None cell one_atom (Data d) = Ok d /\
  (exists ca, get_conventional None cell one_atom cv (Data d) = Ok (c, ca)) /\
  (exists prim pa, get_primitive None cell one_atom cv (Data d) = Ok (prim, pa) /\ get_reciprocal prim = Ok r) /\
  (exists path, get_path_and_points None cell one_atom (Data d) cv true false = Ok (path, pts)).
Definition rec_of (c : mat) : mat := mscale (2 * PI) (tr (minv_total c)).
Lemma hpkot_crystal n fa ce c zs k s pts0 path0 : fa <> "a" -> getitem (String.append fa ce) HPKOT_CONVENTIONAL_TO_PRIMITIVE = Ok k ->
  det c <> 0 -> det k <> 0 -> zs <> [] -> Rabs (/ det k) = INR (length zs) -> In n (map Z.of_nat (seq 1 230)) ->
  let cell := mmul (tr k) c in let d := crystal_data n fa ce k c zs in
  (hpkot_params None cell one_atom d c (params_val c) -> hpkot_get_extended_bl_symbol None cell one_atom (Data d) = Ok s) -> big c ->
  hpkot_get_points c (String.append fa ce) s = Ok pts0 -> getitem s HPKOT_DEFAULT_K_PATHS = Ok path0 ->
  processed cell d "HPKOT" c (rec_of cell) (map (fun kv => (fst kv, vmat (snd kv) (rec_of cell))) pts0).
Proof.
  intros FA K D DK NE LN N cell d S B P Q.
  assert (DC : det cell <> 0) by (unfold cell; rewrite det_mmul, det_tr; intros Z; apply Rmult_integral in Z; tauto).
  assert (G := crystal_hpkot n fa ce k c zs "HPKOT" eq_refl FA). fold cell d in G.
  assert (S' := S (conj (ex_intro _ _ G) (get_params_val _ B))). clear S.
  destruct (crystal_primitive n fa ce k c zs "HPKOT" c k (points k zs)) as (new & GP);
    [left; reflexivity|exact K|exact D|exact DK|apply (crystal_hpkot n fa ce k c zs "hpkot" eq_refl FA)|exists zs; auto|].
  fold cell d in GP. assert (R := get_reciprocal_ok _ DC).
  split; [apply crystal_obtain|]. split; [eauto|]. split; [exists cell; eauto|]. exists path0.
  eapply (crystal_path n fa ce k c zs None "HPKOT" c _ pts0 path0 cell new); eauto; [left; reflexivity|]. fold cell d. change (lower "HPKOT" =? "sc") with false. cbv iota.
  rewrite S'. cbn [bind]. rewrite P. cbn [bind]. rewrite Q. reflexivity.
Qed.
Lemma sc_crystal n fa ce m c zs c' k l v pts0 path0 : (fa =? "h") && (ce =? "R") = false -> getitem (String.append fa ce) SC_CONVENTIONAL_TO_PRIMITIVE = Ok k ->
  sc_conventional_no_hR c fa ce (/ 10000) = Ok c' ->
  det c' <> 0 -> det k <> 0 -> l <> [] -> Rabs (/ det k) = INR (length l) -> In n (map Z.of_nat (seq 1 230)) ->
  map (fun z => vmat (vmat (ofZv z) (tr m)) c) zs = map (fun z => vmat (vmat (ofZv z) (tr k)) c') l ->
  let cell := mmul (tr m) c in let d := crystal_data n fa ce m c zs in let prim := mmul (tr k) c' in
  big c' -> det cell <> 0 ->
  (sc_params None cell one_atom d c' (params_val c') -> (exists pa, get_primitive None cell one_atom "SC" (Data d) = Ok (prim, pa)) ->
   get_reciprocal prim = Ok (rec_of prim) -> sc_get_variation None cell one_atom (Data d) = Ok v) ->
  sc_get_points c' (String.append fa ce) v = Ok pts0 -> lookup_path v = Ok path0 ->
  processed cell d "SC" c' (rec_of prim) (map (fun kv => (fst kv, vmat (snd kv) (rec_of prim))) pts0).
Proof.
  intros FA K E D DK NE LN N ZS cell d prim B DC S P Q.
  assert (DP : det prim <> 0) by (unfold prim; rewrite det_mmul, det_tr; intros Z; apply Rmult_integral in Z; tauto).
  assert (G := crystal_sc n fa ce m c zs "SC" c' eq_refl FA E D). fold cell d in G.
  destruct (crystal_primitive n fa ce m c zs "SC" c' k (map (fun z => vmat (ofZv z) (tr k)) l)) as (new & GP);
    [right; left; reflexivity|exact K|exact D|exact DK| |exists l; auto|].
  { change (lower "SC") with "sc". rewrite (crystal_sc n fa ce m c zs "sc" c' eq_refl FA E D). do 2 f_equal. f_equal. unfold points. rewrite map_map.
    replace (map (fun x => vmat (vmat (vmat (ofZv x) (tr m)) c) (minv_total c')) zs) with (map (fun p => vmat p (minv_total c')) (map (fun z => vmat (vmat (ofZv z) (tr m)) c) zs)) by (rewrite map_map; reflexivity).
    rewrite ZS, map_map. apply map_ext. intros z. rewrite (vmat_mmul _ c'), minv_r, vmat_id by auto. reflexivity. }
  fold cell d prim in GP. assert (R := get_reciprocal_ok _ DP).
  assert (S' := S (conj (ex_intro _ _ G) (get_params_val _ B)) (ex_intro _ _ GP) R). clear S.
  split; [apply crystal_obtain|]. split; [eauto|]. split; [exists prim; eauto|]. exists path0.
  eapply (crystal_path n fa ce m c zs None "SC" c' _ pts0 path0 prim new); eauto; [right; left; reflexivity|]. fold cell d. change (lower "SC" =? "sc") with true. cbv iota.
  rewrite S'. cbn [bind]. rewrite P. cbn [bind]. rewrite Q. reflexivity.
Qed.
Lemma norm_diag x y z : 0 < x -> 0 < y -> 0 < z -> let c := mk x 0 0 0 y 0 0 0 z in
  pa (params_val c) = x /\ pb (params_val c) = y /\ pc (params_val c) = z /\ norm (row1 c) = x /\ norm (row2 c) = y /\ norm (row3 c) = z /\ right_angles c.
Proof.
  intros X Y Z c. destruct (norm_axis x y z) as (N1 & N2 & N3); try lra. unfold c, mk, params_val. cbn [row1 row2 row3 pa pb pc].
  rewrite N1, N2, N3. unfold right_angles. cbn [row1 row2 row3]. repeat split; auto; vunfold; ring.
Qed.
Lemma big_diag x y z : / 10 <= x -> / 10 <= y -> / 10 <= z -> big (mk x 0 0 0 y 0 0 0 z).
Proof. intros. unfold mk. apply big_M3. repeat split; apply norm_big; unfold dot; cbn [vx vy vz]; nra. Qed.
Ltac det_num := unfold mk, t_F, t_I, t_C, t_A, t_mC, t_P; vunfold; lra.
Ltac number := match goal with |- In ?n _ => apply in_map_iff; exists (Z.to_nat n); split; [reflexivity|apply in_seq; cbn; lia] end.
Ltac reqb0 := match goal with |- context [Reqb ?x 0] => destruct (Reqb_spec x 0); [exfalso; try lra|] end.

Ltac count_points := unfold t_P, t_F, t_I, t_C, t_A, t_mC, mk; vunfold; cbn [length INR];
  rewrite Rabs_right; [lra|apply Rle_ge, Rlt_le, Rinv_0_lt_compat; lra].
Ltac crystal n fa ce k c zs := exists (crystal_data n fa ce k c zs), (mmul (tr k) c), (rec_of (mmul (tr k) c)).
Example C55_hpkot_cubic_case : let c := mk 2 0 0 0 2 0 0 0 2 in
  exists d cell r pts, processed cell d "HPKOT" c r pts /\ crystal_family d = "c" /\ centring_type d = "F" /\ cubic c.
Proof.
  intros c. crystal 225%Z "c" "F" t_F c [Zv 0 0 0; Zv 1 0 0; Zv 0 1 0; Zv 0 0 1]. assert (B : big c) by (unfold c; apply big_diag; lra).
  eexists. split; [|split; [reflexivity|split; [reflexivity|]]].
  - eapply (hpkot_crystal 225 "c" "F" c _ t_F "cF2"); [discriminate|reflexivity|unfold c; det_num|det_num|discriminate|count_points|number| |exact B| |reflexivity].
    + intros _. apply (C40_by_space_group None _ one_atom (Data _) _ (crystal_obtain 225 "c" "F" t_F c _ None)); [right; left; reflexivity|]. unfold in_range. cbn. lia.
    + unfold hpkot_get_points. rewrite (get_params_val _ B). reflexivity.
  - destruct (norm_diag 2 2 2) as (_ & _ & _ & N1 & N2 & N3 & RA); try lra. unfold cubic, tetragonal, c. rewrite N1, N2, N3. auto.
Qed.
Example C55_hpkot_tetragonal_case : let c := mk 2 0 0 0 2 0 0 0 3 in
  exists d cell r pts, processed cell d "HPKOT" c r pts /\ crystal_family d = "t" /\ centring_type d = "I" /\ tetragonal c.
Proof.
  intros c. crystal 139%Z "t" "I" t_I c [Zv 0 0 0; Zv 1 1 1]. assert (B : big c) by (unfold c; apply big_diag; lra).
  destruct (norm_diag 2 2 3) as (P1 & P2 & P3 & N1 & N2 & N3 & RA); try lra. fold c in P1, P2, P3, N1, N2, N3, RA.
  eexists. split; [|split; [reflexivity|split; [reflexivity|]]].
  - eapply (hpkot_crystal 139 "t" "I" c _ t_I "tI2"); [discriminate|reflexivity|unfold c; det_num|det_num|discriminate|count_points|number| |exact B| |reflexivity].
    + intros HP. destruct (C40_tetragonal _ _ _ _ _ _ _ (crystal_obtain 139 "t" "I" t_I c _ None) eq_refl eq_refl HP) as (_ & X). apply X. rewrite P1, P3. lra.
    + unfold hpkot_get_points. rewrite (get_params_val _ B). cbn [bind]. cbv zeta. rewrite P1, P2, P3. cbv [mem existsb String.eqb Ascii.eqb Bool.eqb orb]. unfold hpkot_table_74. repeat reqb0. reflexivity.
  - split; [exact RA|]. congruence.
Qed.
(* three different face-centred crystals, of the variations oF1, oF2 and oF3 *)
Lemma oF_crystal x y z s pts0 path0 : / 10 <= x -> / 10 <= y -> / 10 <= z -> let c := mk x 0 0 0 y 0 0 0 z in
  let A := inverse_square x in let B := inverse_square y in let C := inverse_square z in
  ((B + C < A -> s = "oF1") /\ (A + B < C -> s = "oF2") /\ (A <= B + C -> C <= A + B -> s = "oF3")) ->
  hpkot_get_points c "oF" s = Ok pts0 -> getitem s HPKOT_DEFAULT_K_PATHS = Ok path0 ->
  processed (mmul (tr t_F) c) (crystal_data 69 "o" "F" t_F c [Zv 0 0 0; Zv 1 0 0; Zv 0 1 0; Zv 0 0 1]) "HPKOT" c (rec_of (mmul (tr t_F) c))
    (map (fun kv => (fst kv, vmat (snd kv) (rec_of (mmul (tr t_F) c)))) pts0).
Proof.
  intros X Y Z c A B C (S1 & S2 & S3) P Q. assert (BG : big c) by (unfold c; apply big_diag; lra).
  destruct (norm_diag x y z) as (P1 & P2 & P3 & N1 & N2 & N3 & RA); try lra. fold c in P1, P2, P3, N1, N2, N3, RA.
  eapply (hpkot_crystal 69 "o" "F" c _ t_F s); [discriminate|reflexivity| |det_num|discriminate|count_points|number| |exact BG|exact P|exact Q].
  - unfold c, mk. vunfold. replace (x * (y * z - 0 * 0) + 0 * (0 * 0 - 0 * z) + 0 * (0 * 0 - y * 0)) with (x * y * z) by ring.
    intros E. apply Rmult_integral in E. destruct E as [E|E]; [apply Rmult_integral in E|]; lra.
  - intros HP. destruct (C40_orthorhombic_F _ _ _ _ _ _ _ (crystal_obtain 69 "o" "F" t_F c _ None) eq_refl eq_refl HP) as (V1 & V2 & V3 & _).
    rewrite P1, P2, P3 in V1, V2, V3. fold A B C in V1, V2, V3.
    destruct (Rlt_dec (B + C) A); [rewrite S1; tauto|]. destruct (Rlt_dec (A + B) C); [rewrite S2; tauto|]. rewrite S3 by lra. apply V3. lra.
Qed.
Example C55_hpkot_orthorhombic_case : let c := mk 2 0 0 0 3 0 0 0 5 in
  exists d cell r pts, processed cell d "HPKOT" c r pts /\ crystal_family d = "o" /\ centring_type d = "F" /\ right_angles c /\
  inverse_square (norm (row2 c)) <= inverse_square (norm (row1 c)) + inverse_square (norm (row3 c)).
Proof.
  intros c. crystal 69%Z "o" "F" t_F c [Zv 0 0 0; Zv 1 0 0; Zv 0 1 0; Zv 0 0 1]. assert (B : big c) by (unfold c; apply big_diag; lra).
  destruct (norm_diag 2 3 5) as (P1 & P2 & P3 & N1 & N2 & N3 & RA); try lra. fold c in P1, P2, P3, N1, N2, N3, RA.
  eexists. split; [|split; [reflexivity|split; [reflexivity|split; [exact RA|rewrite N1, N2, N3; unfold inverse_square; lra]]]].
  eapply (oF_crystal 2 3 5 "oF1"); try lra.
  - unfold inverse_square. split; [reflexivity|]. split; intros; exfalso; lra.
  - fold c. unfold hpkot_get_points. rewrite (get_params_val _ B). cbn [bind]. cbv zeta. rewrite P1, P2, P3. cbv [mem existsb String.eqb Ascii.eqb Bool.eqb orb]. unfold hpkot_table_76. repeat reqb0. reflexivity.
  - reflexivity.
Qed.
(* The hypothesis on the second vector is needed: when it is the shortest by far, the variation is oF3 and
   its point Y is outside of the zone. *)
Theorem C55_hpkot_oF_refuted : exists cell d c r pts k,
  processed cell d "HPKOT" c r pts /\ crystal_family d = "o" /\ centring_type d = "F" /\ right_angles c /\ In ("Y", k) pts /\ ~ in_zone r k.
Proof.
  set (c := mk 2 0 0 0 1 0 0 0 3). assert (B : big c) by (unfold c; apply big_diag; lra).
  destruct (norm_diag 2 1 3) as (P1 & P2 & P3 & N1 & N2 & N3 & RA); try lra. fold c in P1, P2, P3, N1, N2, N3, RA.
  assert (T : exists l1 l2, hpkot_get_points c "oF" "oF3" = Ok (l1 ++ ("Y", V3 (1 / 2) 0 (1 / 2)) :: l2)).
  { unfold hpkot_get_points. rewrite (get_params_val _ B). cbn [bind]. cbv zeta. rewrite P1, P2, P3. cbv [mem existsb String.eqb Ascii.eqb Bool.eqb orb]. unfold hpkot_table_78. repeat reqb0.
    eexists [_; _; _], _. reflexivity. }
  destruct T as (l1 & l2 & T).
  exists (mmul (tr t_F) c), (crystal_data 69 "o" "F" t_F c [Zv 0 0 0; Zv 1 0 0; Zv 0 1 0; Zv 0 0 1]), c, (rec_of (mmul (tr t_F) c)). eexists. exists (V3 0 (2 * PI) 0).
  split; [|split; [reflexivity|split; [reflexivity|split; [exact RA|]]]].
  - eapply (oF_crystal 2 1 3 "oF3"); try lra; [|exact T|reflexivity]. unfold inverse_square. split; [|split]; intros; try reflexivity; exfalso; lra.
  - assert (R : rec_of (mmul (tr t_F) c) = mscale (2 * PI) (mk (-1/2) 1 (1/3) (1/2) (-1) (1/3) (1/2) 1 (-1/3))).
    { unfold rec_of. f_equal. unfold minv_total, t_F, c, mk. vunfold. f_equal; f_equal; field. }
    rewrite R. split.
    + rewrite map_app. apply in_or_app. right. left. cbn [fst snd]. f_equal. fold c. rewrite R. clear. unfold mk. vunfold. f_equal; field.
    + intros Z. specialize (Z (Zv 1 0 0)). revert Z. unfold dist2, ofZv, mk. cbn [zx zy zz]. vunfold. intros Z. pose proof PI_RGT_0. assert (0 < PI * PI) by nra. lra.
Qed.
Print Assumptions C55_hpkot_oF_refuted.
Example C55_hpkot_hexagonal_case : let c := mk 2 0 0 (-1) (sqrt 3) 0 0 0 5 in
  exists d cell r pts, processed cell d "HPKOT" c r pts /\ crystal_family d = "h" /\ centring_type d = "P" /\ hexagonal c.
Proof.
  intros c. crystal 194%Z "h" "P" t_P c [Zv 0 0 0].
  assert (S3 : sqrt 3 * sqrt 3 = 3) by (apply sqrt_sqrt; lra). assert (P3 : 0 < sqrt 3) by (apply sqrt_lt_R0; lra).
  assert (B : big c) by (unfold c, mk; apply big_M3; repeat split; apply norm_big; unfold dot; cbn [vx vy vz]; lra).
  eexists. split; [|split; [reflexivity|split; [reflexivity|]]].
  - eapply (hpkot_crystal 194 "h" "P" c _ t_P "hP2"); [discriminate|reflexivity| |det_num|discriminate|count_points|number| |exact B| |reflexivity].
    + unfold c, mk. vunfold. nra.
    + intros _. apply (C40_by_space_group None _ one_atom (Data _) _ (crystal_obtain 194 "h" "P" t_P c _ None)); [reflexivity|].
      intros I. apply in_ranges_iff in I. cbv in I. discriminate.
    + unfold hpkot_get_points. rewrite (get_params_val _ B). reflexivity.
  - unfold hexagonal, norm, c, mk. cbn [row1 row2 row3]. unfold dot. cbn [vx vy vz]. repeat split; try lra. f_equal. lra.
Qed.
(* angles that are away from 90 degrees by more than the tolerance *)
Lemma deg_dot u v : 0 < norm u -> 0 < norm v -> 0 <= deg u v <= 180 /\ dot u v = norm u * norm v * cos (deg u v * TORADIANS).
Proof.
  intros U V. destruct (angle_rad_spec u v U V) as (R & E). unfold deg. split; [apply deg_range; exact R|]. rewrite deg_rad. lra.
Qed.
Lemma small_sin : sin (/ 10000 * TORADIANS) < / 10.
Proof.
  assert (PI <= 4) by apply PI_4. pose proof PI_RGT_0. unfold TORADIANS. eapply Rlt_trans; [apply sin_lt_x; lra|]. lra.
Qed.
Lemma cos_order x y : 0 <= x <= 180 -> 0 <= y <= 180 -> cos (y * TORADIANS) < cos (x * TORADIANS) -> x < y.
Proof.
  intros X Y H. destruct (Rlt_dec x y) as [|N]; auto. exfalso.
  destruct (rad_range _ X), (rad_range _ Y). assert (L : y * TORADIANS <= x * TORADIANS).
  { apply Rmult_le_compat_r; [unfold TORADIANS; pose proof PI_RGT_0; lra|lra]. }
  pose proof (cos_decr_1 (y * TORADIANS) (x * TORADIANS)). lra.
Qed.
Lemma deg_far x : 0 <= x <= 180 -> (cos (x * TORADIANS) <= - / 10 -> 90 + / 10000 < x) /\ (/ 10 <= cos (x * TORADIANS) -> x < 90 - / 10000).
Proof.
  intros X. pose proof small_sin as SS. split; intros H; apply cos_order; try lra.
  - replace ((90 + / 10000) * TORADIANS) with (PI / 2 + / 10000 * TORADIANS) by (unfold TORADIANS; field). rewrite cos_plus, cos_PI2, sin_PI2. lra.
  - replace ((90 - / 10000) * TORADIANS) with (PI / 2 - / 10000 * TORADIANS) by (unfold TORADIANS; field). rewrite cos_shift. lra.
Qed.
Lemma norms_sq u v : norm u * norm v * (norm u * norm v) = dot u u * dot v v.
Proof. replace (norm u * norm v * (norm u * norm v)) with (norm u * norm u * (norm v * norm v)) by ring. rewrite !norm_sqr. reflexivity. Qed.
Lemma far_acute u v : 0 < norm u -> 0 < norm v -> 0 < dot u v -> dot u u * dot v v <= 100 * (dot u v * dot u v) -> deg u v < 90 - / 10000.
Proof.
  intros U V P Q. destruct (deg_dot u v U V) as (R & E). apply deg_far; auto. rewrite <- norms_sq in Q.
  assert (N : 0 < norm u * norm v) by (apply Rmult_lt_0_compat; auto).
  assert (L : norm u * norm v <= 10 * dot u v) by nra. rewrite E in L. set (w := norm u * norm v) in *. set (q := cos (deg u v * TORADIANS)) in *. nra.
Qed.
Lemma far_obtuse u v : 0 < norm u -> 0 < norm v -> dot u v < 0 -> dot u u * dot v v <= 100 * (dot u v * dot u v) -> 90 + / 10000 < deg u v.
Proof.
  intros U V P Q. destruct (deg_dot u v U V) as (R & E). apply deg_far; auto. rewrite <- norms_sq in Q.
  assert (N : 0 < norm u * norm v) by (apply Rmult_lt_0_compat; auto).
  assert (L : norm u * norm v <= - (10 * dot u v)) by nra. rewrite E in L. set (w := norm u * norm v) in *. set (q := cos (deg u v * TORADIANS)) in *. nra.
Qed.
Example C55_hpkot_monoclinic_case : let c := mk 2 0 0 0 1 0 (-1/2) 0 4 in
  exists d cell r pts, processed cell d "HPKOT" c r pts /\ crystal_family d = "m" /\ centring_type d = "C" /\ monoclinic_b c /\
  - 2 * dot (row1 c) (row3 c) <= dot (row1 c) (row1 c) /\ - dot (row1 c) (row3 c) <= dot (row3 c) (row3 c).
Proof.
  intros c. crystal 12%Z "m" "C" t_mC c [Zv 0 0 0; Zv 1 0 0].
  assert (B : big c) by (unfold c, mk; apply big_M3; repeat split; apply norm_big; unfold dot; cbn [vx vy vz]; lra).
  assert (G := get_params_val _ B).
  assert (DC : det c <> 0) by (unfold c; det_num).
  assert (SH : monoclinic_b c) by (unfold monoclinic_b, c, mk; cbn [row1 row2 row3]; unfold dot; cbn [vx vy vz]; lra).
  destruct (monoclinic_b_gram _ _ G DC SH) as (_ & PA & PB & PC & PS & PQ & D1 & D3 & D13).
  destruct (params_norms _ _ G) as (_ & N2 & _).
  set (p := params_val c) in *. set (q := cos (pbeta p * TORADIANS)) in *. set (s := sin (pbeta p * TORADIANS)) in *.
  assert (D2 : pb p = 1).
  { rewrite <- N2. unfold c, mk, norm. cbn [row2]. unfold dot. cbn [vx vy vz]. replace (0 * 0 + 1 * 1 + 0 * 0) with 1 by ring. apply sqrt_1. }
  assert (V : dot (row1 c) (row1 c) = 4 /\ dot (row3 c) (row3 c) = 65/4 /\ dot (row1 c) (row3 c) = -1) by (unfold c, mk; cbn [row1 row2 row3]; unfold dot; cbn [vx vy vz]; lra).
  destruct V as (V1 & V3 & V13). rewrite V1 in D1. rewrite V3 in D3. rewrite V13 in D13.
  assert (A2 : pa p = 2) by nra.
  assert (QQ : q * q <= / 4) by (rewrite A2 in D13; nra).
  assert (NS : sq s <> 0) by (unfold sq; nra).
  eexists. split; [|split; [reflexivity|split; [reflexivity|split; [exact SH|lra]]]].
  eapply (hpkot_crystal 12 "m" "C" c _ t_mC "mC1"); [discriminate|reflexivity|exact DC|det_num|discriminate|count_points|number| |exact B| |reflexivity].
  - intros HP. apply (C40_monoclinic _ _ _ _ _ _ _ (crystal_obtain 12 "m" "C" t_mC c _ None) eq_refl eq_refl HP). fold p s. rewrite D2, A2. nra.
  - unfold hpkot_get_points. rewrite (get_params_val _ B). fold p. cbn [bind]. cbv zeta. cbv [mem existsb String.eqb Ascii.eqb Bool.eqb orb]. unfold hpkot_table_88. fold s q.
    destruct (Reqb_spec (pc p) 0); [exfalso; lra|]. destruct (Reqb_spec (sq s) 0); [contradiction|]. destruct (Reqb_spec (pa p) 0); [exfalso; lra|].
    destruct (Reqb_spec (sq (pa p)) 0); [exfalso; unfold sq in *; nra|]. reflexivity.
Qed.
Lemma inverse_diag x y z : 0 < x -> 0 < y -> 0 < z -> det (mk x 0 0 0 y 0 0 0 z) <> 0.
Proof.
  intros X Y Z. unfold mk. vunfold. intros E. assert (x * y * z = 0) by lra. apply Rmult_integral in H. destruct H as [H|H]; [apply Rmult_integral in H|]; lra.
Qed.
Example C55_sc_orthorhombic_case : let c := mk 2 0 0 0 3 0 0 0 5 in
  exists d cell r pts, processed cell d "SC" c r pts /\ crystal_family d = "o" /\ centring_type d = "F" /\ right_angles c /\ 0 <= symprec d /\
  sc_get_variation None cell one_atom (Data d) = Ok (Some "ORCF1").
Proof.
  intros c. crystal 69%Z "o" "F" t_F c [Zv 0 0 0; Zv 1 0 0; Zv 0 1 0; Zv 0 0 1]. assert (B : big c) by (unfold c; apply big_diag; lra).
  destruct (norm_diag 2 3 5) as (P1 & P2 & P3 & N1 & N2 & N3 & RA); try lra. fold c in P1, P2, P3, N1, N2, N3, RA.
  assert (DC : det c <> 0) by (apply inverse_diag; lra).
  assert (E : sc_conventional_no_hR c "o" "F" (/ 10000) = Ok c).
  { change (sc_conventional_no_hR c "o" "F" (/ 10000)) with (sc_conventional_oPFI c). unfold sc_conventional_oPFI. rewrite (get_params_val _ B). cbn [bind].
    rewrite P1, P2, P3. unfold order_matrix. destruct (Rltb_spec 2 3), (Rltb_spec 3 5); try (exfalso; lra). cbn [andb bind]. unfold c, mk. rewrite tapply_eye. reflexivity. }
  assert (V : sc_params None (mmul (tr t_F) c) one_atom (crystal_data 69 "o" "F" t_F c [Zv 0 0 0; Zv 1 0 0; Zv 0 1 0; Zv 0 0 1]) c (params_val c) ->
    sc_get_variation None (mmul (tr t_F) c) one_atom (Data (crystal_data 69 "o" "F" t_F c [Zv 0 0 0; Zv 1 0 0; Zv 0 1 0; Zv 0 0 1])) = Ok (Some "ORCF1")).
  { intros HP. assert (SP : 0 <= symprec (crystal_data 69 "o" "F" t_F c [Zv 0 0 0; Zv 1 0 0; Zv 0 1 0; Zv 0 0 1])) by (cbn; lra).
    destruct (C39_orthorhombic _ _ _ _ _ _ _ (crystal_obtain 69 "o" "F" t_F c _ None) eq_refl eq_refl HP SP) as (V1 & _).
    apply V1. rewrite P1, P2, P3. cbn [symprec crystal_data]. unfold inverse_square. lra. }
  eexists. split; [|split; [reflexivity|split; [reflexivity|split; [exact RA|split; [cbn; lra|]]]]].
  - eapply (sc_crystal 69 "o" "F" t_F c _ c t_F [Zv 0 0 0; Zv 1 0 0; Zv 0 1 0; Zv 0 0 1]); [reflexivity|reflexivity|exact E|exact DC|det_num|discriminate|count_points|number|reflexivity|exact B| | | | ].
    + rewrite det_mmul, det_tr. intros Z. apply Rmult_integral in Z. destruct Z; [revert H; det_num|auto].
    + intros HP _ _. apply V. exact HP.
    + unfold sc_get_points. rewrite (get_params_val _ B). cbn [bind]. cbv zeta. rewrite P1, P2, P3.
      match goal with |- context [lookup ?l SC_BRAVAIS_LATTICE_SHORT_NAMES] => change (lookup l SC_BRAVAIS_LATTICE_SHORT_NAMES) with (Some "ORCF") end.
      cbv iota. cbn [String.eqb Ascii.eqb Bool.eqb]. change (one_of (Some "ORCF1") ["ORCF1"; "ORCF3"]) with true. cbv iota. unfold sc_table_9. unfold sq. repeat reqb0. reflexivity.
    + reflexivity.
  - apply V. split; [|apply get_params_val; exact B]. eexists. apply (crystal_sc 69 "o" "F" t_F c _ "SC" c eq_refl eq_refl E DC).
Qed.
(* The monoclinic crystal with the conventional vectors (0,1,0), (-4,0,0), (-1,0,2). *)
Definition mclc_spglib : mat := mk 4 0 0  0 1 0  (-1) 0 2.
Definition mclc : mat := mk 0 1 0  (-4) 0 0  (-1) 0 2.
Definition mclc_points := [Zv 0 0 0; Zv 1 0 0].
Definition mclc_data := crystal_data 12 "m" "C" t_mC mclc_spglib mclc_points.
Lemma mclc_reciprocal : rec_of (mmul (tr t_mC) mclc) = mscale (2 * PI) (mk (-1/4) 1 (-1/8)  (-1/4) (-1) (-1/8)  0 0 (1/2)).
Proof. unfold rec_of. f_equal. unfold minv_total, t_mC, mclc, mk. vunfold. f_equal; f_equal; field. Qed.
Lemma mclc_conventional : sc_conventional_no_hR mclc_spglib "m" "C" (/ 10000) = Ok mclc.
Proof.
  change (sc_conventional_no_hR mclc_spglib "m" "C" (/ 10000)) with (sc_conventional_m mclc_spglib "C" (/ 10000)).
  assert (B : big mclc_spglib) by (unfold mclc_spglib, mk; apply big_M3; repeat split; apply norm_big; unfold dot; cbn [vx vy vz]; lra).
  unfold sc_conventional_m. rewrite (get_params_val _ B). cbn [bind]. unfold mclc_spglib, mk. rewrite val_M3. cbn [palpha pbeta pgamma].
  destruct (big_pos _ B) as (Q1 & Q2 & Q3). unfold mclc_spglib, mk in Q1, Q2, Q3. cbn [row1 row2 row3] in Q1, Q2, Q3.
  rewrite (deg_90 (V3 0 1 0) (V3 (-1) 0 2)) by (unfold dot; cbn; lra). rewrite (deg_90 (V3 4 0 0) (V3 0 1 0)) by (unfold dot; cbn; lra).
  assert (O : 90 + / 10000 < deg (V3 4 0 0) (V3 (-1) 0 2)) by (apply far_obtuse; auto; unfold dot; cbn; lra).
  assert (E9 : cwt 90 CEq 90 (/ 10000) = true) by (apply cwt_eq; lra).
  assert (EB : cwt (deg (V3 4 0 0) (V3 (-1) 0 2)) CEq 90 (/ 10000) = false) by (apply cwt_eq_false; lra).
  rewrite E9, EB. cbn [andb]. cbn [bind]. cbv zeta. rewrite tapply_rot_ab.
  assert (B2 : big (M3 (V3 0 1 0) (vneg (V3 4 0 0)) (V3 (-1) 0 2))) by (rewrite big_M3, norm_neg; unfold mclc_spglib, mk in B; rewrite big_M3 in B; tauto).
  rewrite (get_params_val _ B2). cbn [bind]. rewrite orb_true_r. rewrite tapply_eye. rewrite (get_params_val _ B2). cbn [bind].
  rewrite val_M3. cbn [palpha]. rewrite deg_neg_l by auto.
  assert (LE : cwt (180 - deg (V3 4 0 0) (V3 (-1) 0 2)) CLe 90 (/ 10000) = true) by (apply cwt_le; lra).
  rewrite LE, tapply_eye. unfold mclc, mk. do 2 f_equal. unfold vneg. cbn. f_equal; ring.
Qed.
Lemma mclc_big : big mclc.
Proof. unfold mclc, mk; apply big_M3; repeat split; apply norm_big; unfold dot; cbn [vx vy vz]; lra. Qed.
Lemma mclc_variation :
  sc_params None (mmul (tr t_mC) mclc_spglib) one_atom mclc_data mclc (params_val mclc) ->
  (exists pa, get_primitive None (mmul (tr t_mC) mclc_spglib) one_atom "SC" (Data mclc_data) = Ok (mmul (tr t_mC) mclc, pa)) ->
  get_reciprocal (mmul (tr t_mC) mclc) = Ok (rec_of (mmul (tr t_mC) mclc)) ->
  sc_get_variation None (mmul (tr t_mC) mclc_spglib) one_atom (Data mclc_data) = Ok (Some "MCLC1").
Proof.
  intros HP (pa & GP) R. set (r := rec_of (mmul (tr t_mC) mclc)) in *.
  assert (ER : r = mscale (2 * PI) (mk (-1/4) 1 (-1/8)  (-1/4) (-1) (-1/8)  0 0 (1/2))) by apply mclc_reciprocal.
  assert (P3 : 3 < PI) by (pose proof PI2_3_2; lra).
  assert (PP : 9 < PI * PI) by nra.
  assert (D11 : dot (row1 r) (row1 r) = 4 * (PI * PI) * (69/64)) by (rewrite ER; unfold mk; vunfold; field).
  assert (D22 : dot (row2 r) (row2 r) = 4 * (PI * PI) * (69/64)) by (rewrite ER; unfold mk; vunfold; field).
  assert (D33 : dot (row3 r) (row3 r) = 4 * (PI * PI) * (1/4)) by (rewrite ER; unfold mk; vunfold; field).
  assert (D12 : dot (row1 r) (row2 r) = - (4 * (PI * PI) * (59/64))) by (rewrite ER; unfold mk; vunfold; field).
  assert (B : big r) by (destruct r as [u v w]; cbn [row1 row2 row3] in *; apply big_M3; repeat split; apply norm_big; lra).
  destruct (big_pos _ B) as (Q1 & Q2 & Q3).
  assert (SP : 0 <= symprec mclc_data) by (cbn; lra).
  assert (SA : spglib_angle_or_default mclc_data = / 10000).
  { unfold spglib_angle_or_default. cbn [mclc_data crystal_data angle_tolerance]. rewrite (proj2 (Reqb_true _ _) eq_refl). reflexivity. }
  destruct (C39_monoclinic _ _ _ _ _ _ _ _ _ _ _ (crystal_obtain 12 "m" "C" t_mC mclc_spglib mclc_points None) eq_refl eq_refl HP GP R (get_params_val _ B) ltac:(fold mclc_data; rewrite SA; lra) SP) as (V1 & _).
  apply V1. fold mclc_data. rewrite SA. destruct r as [u v w]. rewrite val_M3. cbn [pgamma]. cbn [row1 row2 row3] in *. apply far_obtuse; auto; [lra|].
  rewrite D11, D22, D12. set (x := 4 * (PI * PI)) in *. assert (0 < x) by (unfold x; lra). nra.
Qed.
(* the point F3 of this crystal is outside of the zone, and the other hypotheses of C55_sc_monoclinic are met *)
Theorem C55_sc_F3_refuted : exists cell d c r pts k p,
  processed cell d "SC" c r pts /\ crystal_family d = "m" /\ centring_type d = "C" /\ monoclinic_a c /\ get_params c = Ok p /\
  sc_get_variation None cell one_atom (Data d) = Ok (Some "MCLC1") /\ 0 <= symprec d /\ 0 <= spglib_angle_or_default d /\
  2 * dot (row2 c) (row3 c) <= dot (row2 c) (row2 c) /\ dot (row2 c) (row3 c) <= dot (row3 c) (row3 c) /\
  In ("F3", k) pts /\ ~ in_zone r k.
Proof.
  pose proof mclc_big as B. assert (G := get_params_val _ B).
  assert (DC : det mclc <> 0) by (unfold mclc; det_num).
  assert (SH : monoclinic_a mclc) by (unfold monoclinic_a, mclc, mk; cbn [row1 row2 row3]; unfold dot; cbn [vx vy vz]; lra).
  destruct (monoclinic_a_gram _ _ G DC SH) as (_ & PA & PB & PC & PS & PQ & D2 & D3 & D23).
  set (p := params_val mclc) in *. set (q := cos (palpha p * TORADIANS)) in *. set (s := sin (palpha p * TORADIANS)) in *.
  assert (W2 : dot (row2 mclc) (row2 mclc) = 16 /\ dot (row3 mclc) (row3 mclc) = 5 /\ dot (row2 mclc) (row3 mclc) = 4) by (unfold mclc, mk; cbn [row1 row2 row3]; unfold dot; cbn [vx vy vz]; lra).
  destruct W2 as (W2 & W3 & W23). assert (X2 := D2). assert (X3 := D3). assert (X23 := D23). rewrite W2 in X2. rewrite W3 in X3. rewrite W23 in X23.
  assert (B4 : pb p = 4) by nra. rewrite B4 in X23. assert (CQ : pc p * q = 1) by lra.
  assert (Q5 : q / pc p = 1 / 5).
  { replace (q / pc p) with (pc p * q / (pc p * pc p)) by (field; lra). rewrite CQ, <- X3. reflexivity. }
  assert (SS : s * s = 4 / 5).
  { assert (QQ : q * q = 1 / 5) by (replace (q * q) with (pc p * q * (q / pc p)) by (field; lra); rewrite CQ, Q5; ring). lra. }
  set (z := (2 - pb p * q / pc p) / (4 * sq s)). set (e := 1 / 2 + 2 * z * pc p * q / pb p).
  assert (Z : z = 3 / 8).
  { unfold z, sq. rewrite SS, B4. replace (4 * q / pc p) with (4 * (q / pc p)) by (field; lra). rewrite Q5. field. }
  assert (E : e = 11 / 16).
  { unfold e. replace (2 * z * pc p * q / pb p) with (2 * z * (pc p * q) / pb p) by (field; lra). rewrite CQ, Z, B4. field. }
  assert (T : exists l1 l2, sc_get_points mclc "mC" (Some "MCLC1") = Ok (l1 ++ ("F3", V3 (1 - z) (- z) (1 - e)) :: l2)).
  { unfold sc_get_points. rewrite G. fold p. cbn [bind]. cbv zeta.
    change (lookup "mC" SC_BRAVAIS_LATTICE_SHORT_NAMES) with (Some "MCLC").
    cbv iota. cbn [String.eqb Ascii.eqb Bool.eqb]. change (one_of (Some "MCLC1") ["MCLC1"; "MCLC2"]) with true. cbv iota. unfold sc_table_17. cbv zeta. fold q s.
    destruct (Reqb_spec (pc p) 0); [exfalso; lra|]. destruct (Reqb_spec (4 * sq s) 0) as [N|]; [exfalso; unfold sq in N; lra|]. destruct (Reqb_spec (pb p) 0); [exfalso; lra|].
    destruct (Reqb_spec (4 * sq (pb p) * sq s) 0) as [N|]; [exfalso; unfold sq in N; rewrite SS, B4 in N; lra|].
    fold z e. eexists [_; _; _; _; _; _], _. reflexivity. }
  destruct T as (l1 & l2 & T).
  exists (mmul (tr t_mC) mclc_spglib), mclc_data, mclc, (rec_of (mmul (tr t_mC) mclc)). eexists. exists (vmat (V3 (5/8) (-3/8) (5/16)) (rec_of (mmul (tr t_mC) mclc))), p.
  assert (SA : spglib_angle_or_default mclc_data = / 10000).
  { unfold spglib_angle_or_default. cbn [mclc_data crystal_data angle_tolerance]. rewrite (proj2 (Reqb_true _ _) eq_refl). reflexivity. }
  assert (PR : processed (mmul (tr t_mC) mclc_spglib) mclc_data "SC" mclc (rec_of (mmul (tr t_mC) mclc))
     (map (fun kv => (fst kv, vmat (snd kv) (rec_of (mmul (tr t_mC) mclc)))) (l1 ++ ("F3", V3 (1 - z) (- z) (1 - e)) :: l2))).
  { eapply (sc_crystal 12 "m" "C" t_mC mclc_spglib mclc_points mclc t_mC [Zv 0 0 0; Zv 0 (-1) 0]);
      [reflexivity|reflexivity|apply mclc_conventional|exact DC|det_num|discriminate|count_points|number| |exact B|unfold mclc_spglib; det_num|apply mclc_variation|exact T|reflexivity].
    unfold mclc_points, mclc_spglib, mclc, t_mC, mk. cbn [map]. unfold ofZv. cbn [zx zy zz]. vunfold. f_equal; [|f_equal]; f_equal; lra. }
  split; [exact PR|]. split; [reflexivity|split; [reflexivity|split; [exact SH|split; [exact G|split]]]].
  - destruct PR as (_ & GC & (prim & pa & GP & R) & _).
    assert (DP : det (mmul (tr t_mC) mclc) <> 0) by (rewrite det_mmul, det_tr; intros ZZ; apply Rmult_integral in ZZ; destruct ZZ as [ZZ|ZZ]; [revert ZZ; det_num|auto]).
    apply mclc_variation.
    + split; [exact GC|exact G].
    + destruct (crystal_primitive 12 "m" "C" t_mC mclc_spglib mclc_points "SC" mclc t_mC (map (fun z => vmat (ofZv z) (tr t_mC)) [Zv 0 0 0; Zv 0 (-1) 0])) as (new & GP');
        [right; left; reflexivity|reflexivity|exact DC|det_num| |exists [Zv 0 0 0; Zv 0 (-1) 0]; split; [discriminate|split; [reflexivity|count_points]]|eauto].
      change (lower "SC") with "sc". rewrite (crystal_sc 12 "m" "C" t_mC mclc_spglib mclc_points "sc" mclc eq_refl eq_refl mclc_conventional DC). do 2 f_equal. f_equal.
      unfold points, mclc_points. cbn [map].
      assert (X : forall a b, vmat a mclc_spglib = vmat b mclc -> vmat (vmat a mclc_spglib) (minv_total mclc) = b) by (intros a b ->; rewrite vmat_mmul, minv_r, vmat_id by auto; reflexivity).
      f_equal; [|f_equal]; apply X; unfold mclc_spglib, mclc, t_mC, mk, ofZv; cbn [zx zy zz]; vunfold; f_equal; lra.
    + apply get_reciprocal_ok. exact DP.
  - rewrite SA. cbn [mclc_data crystal_data symprec]. do 2 (split; [lra|]). split; [lra|]. split; [lra|].
    assert (F3 : V3 (1 - z) (- z) (1 - e) = V3 (5/8) (-3/8) (5/16)) by (rewrite Z, E; f_equal; field).
    rewrite F3. split; [rewrite map_app; apply in_or_app; right; left; reflexivity|].
    rewrite mclc_reciprocal. clear. intros ZN. specialize (ZN (Zv 1 0 0)). revert ZN. unfold dist2, ofZv, mk. cbn [zx zy zz]. vunfold. intros ZN. pose proof PI_RGT_0. assert (0 < PI * PI) by nra. lra.
Qed.
Print Assumptions C55_sc_F3_refuted.
(* a rhombohedral crystal: primitive vectors (1,1,3), (1,3,1), (3,1,1) *)
Definition rhl : mat := mk 1 1 3  1 3 1  3 1 1.
Definition rhl_hexagonal : mat := mk 0 (-2) 2  (-2) 2 0  5 5 5.
Definition rhl_data := crystal_data 166 "h" "R" (tr obverse) rhl_hexagonal [Zv 0 0 0; Zv 1 0 0; Zv 1 1 0].
Example C55_sc_rhombohedral_case : exists cell path pts,
  obtain_data None cell one_atom (Data rhl_data) = Ok rhl_data /\ crystal_family rhl_data = "h" /\ centring_type rhl_data = "R" /\
  (exists ca, get_conventional None cell one_atom "SC" (Data rhl_data) = Ok (rhl, ca)) /\ rhombohedral_shape rhl /\ 0 <= spglib_angle_or_default rhl_data /\
  get_path_and_points None cell one_atom (Data rhl_data) "SC" true false = Ok (path, pts).
Proof.
  set (cell := mmul (tr (tr obverse)) rhl_hexagonal).
  assert (CE : cell = rhl) by (unfold cell, obverse, rhl_hexagonal, rhl, mk; vunfold; f_equal; f_equal; field).
  assert (B : big rhl) by (unfold rhl, mk; apply big_M3; repeat split; apply norm_big; unfold dot; cbn [vx vy vz]; lra).
  assert (DC : det rhl <> 0) by (unfold rhl; det_num). assert (G := get_params_val _ B). destruct (big_pos _ B) as (Q1 & Q2 & Q3).
  assert (SH : rhombohedral_shape rhl).
  { unfold rhombohedral_shape, norm, rhl, mk. cbn [row1 row2 row3]. unfold dot. cbn [vx vy vz]. repeat split; try lra; f_equal; lra. }
  assert (SA : spglib_angle_or_default rhl_data = / 10000).
  { unfold spglib_angle_or_default. cbn [rhl_data crystal_data angle_tolerance]. rewrite (proj2 (Reqb_true _ _) eq_refl). reflexivity. }
  assert (AE : palpha (params_val rhl) = pbeta (params_val rhl) /\ palpha (params_val rhl) = pgamma (params_val rhl)).
  { destruct (get_params_ok rhl) as (p & G' & (M1 & M2 & M3 & R1 & R2 & R3 & X & Y & Z)); try apply B. assert (p = params_val rhl) by congruence. subst p.
    destruct SH as (N1 & N2 & E1 & E2). assert (PA : 0 < pa (params_val rhl)) by (rewrite <- M1; auto).
    assert (EB : pb (params_val rhl) = pa (params_val rhl)) by congruence. assert (EC : pc (params_val rhl) = pa (params_val rhl)) by congruence. rewrite EB, EC in *.
    assert (PP : pa (params_val rhl) * pa (params_val rhl) <> 0) by nra.
    split; apply cos_deg_inj; auto; apply (Rmult_eq_reg_l (pa (params_val rhl) * pa (params_val rhl))); auto; congruence. }
  assert (E : sc_conventional_hR cell (/ 10000) (/ 100000) = Ok rhl).
  { rewrite CE. unfold sc_conventional_hR. rewrite G. cbn [bind]. destruct (params_norms _ _ G) as (M1 & M2 & M3). rewrite <- M1, <- M2, <- M3.
    destruct SH as (N1 & N2 & _). rewrite <- N1, <- N2.
    assert (NE : cwt (norm (row1 rhl)) CNe (norm (row1 rhl)) (/ 100000) = false) by (apply cwt_ne_false; lra). rewrite NE. cbn [orb].
    destruct AE as (A1 & A2). rewrite <- A1, <- A2.
    assert (EQ : cwt (palpha (params_val rhl)) CEq (palpha (params_val rhl)) (/ 10000) = true) by (apply cwt_eq; lra). rewrite EQ. cbn [andb bind].
    unfold rhl, mk. rewrite tapply_eye. reflexivity. }
  assert (GC := crystal_sc_hR 166 "h" "R" (tr obverse) rhl_hexagonal [Zv 0 0 0; Zv 1 0 0; Zv 1 1 0] "SC" rhl eq_refl eq_refl E DC). fold cell rhl_data in GC.
  assert (PO : vmat (vmat vzero cell) (minv_total rhl) = vmat (ofZv (Zv 0 0 0)) (tr t_P)).
  { rewrite CE, vmat_mmul, minv_r, vmat_id by auto. unfold t_P, mk, ofZv. cbn [zx zy zz]. vunfold. unfold vzero. f_equal; ring. }
  destruct (crystal_primitive 166 "h" "R" (tr obverse) rhl_hexagonal [Zv 0 0 0; Zv 1 0 0; Zv 1 1 0] "SC" rhl t_P [vmat (ofZv (Zv 0 0 0)) (tr t_P)]) as (new & GP);
    [right; left; reflexivity|reflexivity|exact DC|det_num| |exists [Zv 0 0 0]; split; [discriminate|split; [reflexivity|count_points]]|].
  { change (lower "SC") with "sc". rewrite <- PO. apply (crystal_sc_hR 166 "h" "R" (tr obverse) rhl_hexagonal _ "sc" rhl eq_refl eq_refl E DC). }
  fold cell rhl_data in GP.
  assert (DP : det (mmul (tr t_P) rhl) <> 0) by (rewrite det_mmul, det_tr; intros ZZ; apply Rmult_integral in ZZ; destruct ZZ as [ZZ|ZZ]; [revert ZZ; det_num|auto]).
  assert (AC : palpha (params_val rhl) < 90 - / 10000).
  { unfold rhl, mk in *. rewrite val_M3. cbn [palpha]. cbn [row1 row2 row3] in Q1, Q2, Q3. apply far_acute; auto; unfold dot; cbn [vx vy vz]; lra. }
  assert (HP : sc_params None cell one_atom rhl_data rhl (params_val rhl)) by (split; [eexists; exact GC|exact G]).
  assert (V : sc_get_variation None cell one_atom (Data rhl_data) = Ok (Some "RHL1")).
  { apply (C39_rhombohedral _ _ _ _ _ _ _ (crystal_obtain 166 "h" "R" (tr obverse) rhl_hexagonal _ None) eq_refl eq_refl HP); fold rhl_data; rewrite SA; [lra|exact AC]. }
  destruct (get_params_ok rhl) as (p & G' & (M1 & M2 & M3 & R1 & _ & _ & X & _)); try apply B. assert (p = params_val rhl) by congruence. subst p.
  destruct (cos_deg_sign _ R1) as (_ & CP). assert (CP' := CP ltac:(lra)).
  assert (T : exists pts0, sc_get_points rhl "hR" (Some "RHL1") = Ok pts0).
  { unfold sc_get_points. rewrite G. cbn [bind]. cbv zeta. change (lookup "hR" SC_BRAVAIS_LATTICE_SHORT_NAMES) with (Some "RHL").
    cbv iota. cbn [String.eqb Ascii.eqb Bool.eqb]. change (is_variation (Some "RHL1") "RHL1") with true. cbv iota. unfold sc_table_14. cbv zeta. repeat reqb0. eexists. reflexivity. }
  destruct T as (pts0 & T).
  exists cell. do 2 eexists. split; [apply crystal_obtain|]. do 2 (split; [reflexivity|]). split; [eexists; exact GC|]. split; [exact SH|]. split; [rewrite SA; lra|].
  apply (crystal_path 166 "h" "R" (tr obverse) rhl_hexagonal [Zv 0 0 0; Zv 1 0 0; Zv 1 1 0] None "SC" rhl _ pts0 "GAMMA-L-B1|B-Z-GAMMA-X|Q-F-P1-Z|L-P" _ new (rec_of (mmul (tr t_P) rhl)) (or_intror (or_introl eq_refl)) ltac:(number) GC GP (get_reciprocal_ok _ DP)).
  change (lower "SC" =? "sc") with true. cbv iota. fold cell rhl_data. rewrite V. cbn [bind]. change ("h" ++ "R")%string with "hR". rewrite T. cbn [bind]. reflexivity.
Qed.
(* A triclinic crystal.  All reciprocal angles are acute, and the third is the closest to 90 degrees; the product of
   the first two reciprocal vectors is not the smallest, because the third vector is the shortest. *)
Definition tri : mat := mk (1/2) (-29/800) 0  0 (1/2) 0  (-1/5) (-371/2000) 1.
Definition tri_r : mat := mscale (2 * PI) (mk 2 0 (2/5)  (29/200) 2 (2/5)  0 0 1).
Lemma tri_reciprocal : get_reciprocal tri = Ok tri_r.
Proof. apply reciprocal_unique; [unfold tri; det_num|]. unfold tri, tri_r, mk. generalize PI. intros. vunfold. f_equal; f_equal; field. Qed.
Lemma tri_r_dots : dot (row1 tri_r) (row1 tri_r) = 4 * (PI * PI) * (104/25) /\ dot (row2 tri_r) (row2 tri_r) = 4 * (PI * PI) * (167241/40000) /\
  dot (row3 tri_r) (row3 tri_r) = 4 * (PI * PI) /\ dot (row1 tri_r) (row2 tri_r) = 4 * (PI * PI) * (9/20) /\
  dot (row1 tri_r) (row3 tri_r) = 4 * (PI * PI) * (2/5) /\ dot (row2 tri_r) (row3 tri_r) = 4 * (PI * PI) * (2/5).
Proof. unfold tri_r, mk. repeat split; vunfold; field. Qed.
Lemma tri_r_big : big tri_r.
Proof.
  destruct tri_r_dots as (D1 & D2 & D3 & _). assert (P3 : 3 < PI) by (pose proof PI2_3_2; lra). assert (PP : 9 < PI * PI) by nra.
  destruct tri_r as [u v w]. cbn [row1 row2 row3] in *. apply big_M3; repeat split; apply norm_big; lra.
Qed.
Lemma order_deg u v u' v' : 0 < norm u -> 0 < norm v -> 0 < norm u' -> 0 < norm v' -> 0 < dot u v -> 0 < dot u' v' ->
  dot u' v' * dot u' v' * (dot u u * dot v v) < dot u v * dot u v * (dot u' u' * dot v' v') -> deg u v < deg u' v'.
Proof.
  intros U V U' V' P P' Q. destruct (deg_dot u v U V) as (R & E). destruct (deg_dot u' v' U' V') as (R' & E'). apply cos_order; auto.
  rewrite <- !norms_sq in Q. rewrite E, E' in Q. rewrite E in P. rewrite E' in P'.
  assert (N : 0 < norm u * norm v) by (apply Rmult_lt_0_compat; auto). assert (N' : 0 < norm u' * norm v') by (apply Rmult_lt_0_compat; auto).
  set (w := norm u * norm v) in *. set (w' := norm u' * norm v') in *. set (q := cos (deg u v * TORADIANS)) in *. set (q' := cos (deg u' v' * TORADIANS)) in *.
  assert (0 < q) by nra. assert (0 < q') by nra.
  assert (WW : 0 < w * w * (w' * w')) by (apply Rmult_lt_0_compat; nra).
  assert (q' * q' * (w * w * (w' * w')) < q * q * (w * w * (w' * w'))) by nra.
  assert (q' * q' < q * q) by (apply (Rmult_lt_reg_r (w * w * (w' * w'))); auto). nra.
Qed.
Lemma tri_conventional : sc_conventional_no_hR tri "a" "P" (/ 10000) = Ok tri /\
  palpha (params_val tri_r) < 90 - / 10000 /\ pbeta (params_val tri_r) < 90 - / 10000 /\ pgamma (params_val tri_r) < 90 - / 10000.
Proof.
  pose proof tri_r_big as B. destruct tri_r_dots as (D1 & D2 & D3 & D12 & D13 & D23). destruct (big_pos _ B) as (Q1 & Q2 & Q3).
  assert (X : 0 < 4 * (PI * PI)) by (pose proof PI_RGT_0; nra). set (x := 4 * (PI * PI)) in *.
  assert (X2 : 0 < x * x) by nra. assert (X4 : 0 < x * x * (x * x)) by (apply Rmult_lt_0_compat; auto).
  assert (RI := reciprocal_involution _ _ tri_reciprocal).
  assert (AN : palpha (params_val tri_r) < 90 - / 10000 /\ pbeta (params_val tri_r) < 90 - / 10000 /\ pgamma (params_val tri_r) < 90 - / 10000).
  { change (params_val tri_r) with (Params (norm (row1 tri_r)) (norm (row2 tri_r)) (norm (row3 tri_r)) (deg (row2 tri_r) (row3 tri_r)) (deg (row1 tri_r) (row3 tri_r)) (deg (row1 tri_r) (row2 tri_r))).
    cbn [palpha pbeta pgamma].
    split; [|split]; apply far_acute; auto; rewrite ?D12, ?D13, ?D23, ?D1, ?D2, ?D3; lra. }
  split; [|exact AN].
  assert (OA : palpha (params_val tri_r) < pgamma (params_val tri_r)).
  { change (deg (row2 tri_r) (row3 tri_r) < deg (row1 tri_r) (row2 tri_r)). apply order_deg; auto; rewrite ?D12, ?D13, ?D23, ?D1, ?D2, ?D3; lra. }
  assert (OB : pbeta (params_val tri_r) < pgamma (params_val tri_r)).
  { change (deg (row1 tri_r) (row3 tri_r) < deg (row1 tri_r) (row2 tri_r)). apply order_deg; auto; rewrite ?D12, ?D13, ?D23, ?D1, ?D2, ?D3; lra. }
  change (sc_conventional_no_hR tri "a" "P" (/ 10000)) with (sc_conventional_a tri (/ 10000)). unfold sc_conventional_a. rewrite tri_reciprocal. cbn [bind]. rewrite (get_params_val _ B). cbn [bind].
  destruct AN as (A1 & A2 & A3). unfold sign_matrix, andb3.
  destruct (Rltb_spec (palpha (params_val tri_r)) 90); [|exfalso; lra]. destruct (Rltb_spec (pbeta (params_val tri_r)) 90); [|exfalso; lra]. destruct (Rltb_spec (pgamma (params_val tri_r)) 90); [|exfalso; lra].
  cbn [andb orb bind]. cbv zeta. assert (TE : tapply eye tri_r = tri_r) by (destruct tri_r; apply tapply_eye). rewrite TE, (get_params_val _ B). cbn [bind].
  assert (CL : closest_to_90 (pgamma (params_val tri_r)) (palpha (params_val tri_r)) (pbeta (params_val tri_r)) (pgamma (params_val tri_r)) (/ 10000) = true).
  { unfold closest_to_90. apply orb_true_iff. right. apply andb_true_iff. split; [|apply cwt_le; lra]. apply Reqb_true. unfold max3. rewrite Rmax_right; [reflexivity|]. apply Rmax_lub; lra. }
  rewrite CL. cbn [bind]. rewrite RI. cbn [bind]. unfold tri, mk. rewrite tapply_eye. reflexivity.
Qed.
(* the point N of this crystal is outside of the zone *)
Theorem C55_sc_TRI1b_refuted : exists cell d c r pts k,
  processed cell d "SC" c r pts /\ crystal_family d = "a" /\ centring_type d = "P" /\ get_reciprocal c = Ok r /\ pairwise_reduced r /\
  0 <= spglib_angle_or_default d /\ sc_get_variation None cell one_atom (Data d) = Ok (Some "TRI1b") /\
  In ("N", k) pts /\ ~ in_zone r k.
Proof.
  destruct tri_conventional as (E & A1 & A2 & A3). pose proof tri_r_big as B. destruct tri_r_dots as (D1 & D2 & D3 & D12 & D13 & D23).
  assert (BT : big tri) by (unfold tri, mk; apply big_M3; repeat split; apply norm_big; unfold dot; cbn [vx vy vz]; lra).
  assert (DC : det tri <> 0) by (unfold tri; det_num).
  set (d := crystal_data 2 "a" "P" t_P tri [Zv 0 0 0]). set (cell := mmul (tr t_P) tri).
  assert (CE : cell = tri) by (unfold cell, t_P, tri, mk; vunfold; f_equal; f_equal; field).
  assert (SA : spglib_angle_or_default d = / 10000).
  { unfold spglib_angle_or_default. cbn [d crystal_data angle_tolerance]. rewrite (proj2 (Reqb_true _ _) eq_refl). reflexivity. }
  assert (RE : rec_of (mmul (tr t_P) tri) = tri_r).
  { fold cell. rewrite CE. pose proof tri_reciprocal as R. rewrite (get_reciprocal_ok _ DC) in R. unfold rec_of. congruence. }
  assert (V : sc_params None cell one_atom d tri (params_val tri) -> sc_get_variation None cell one_atom (Data d) = Ok (Some "TRI1b")).
  { intros HP. apply (C39_triclinic _ _ _ _ _ _ _ _ _ (crystal_obtain 2 "a" "P" t_P tri _ None) eq_refl eq_refl HP tri_reciprocal (get_params_val _ B)); fold d; rewrite SA; [lra|auto]. }
  assert (T : exists l1 l2, sc_get_points tri "aP" (Some "TRI1b") = Ok (l1 ++ ("N", V3 (-1 / 2) (-1 / 2) (1 / 2)) :: l2)).
  { unfold sc_get_points. rewrite (get_params_val _ BT). cbn [bind]. cbv zeta. change (lookup "aP" SC_BRAVAIS_LATTICE_SHORT_NAMES) with (Some "TRI").
    cbv iota. cbn [String.eqb Ascii.eqb Bool.eqb]. change (one_of (Some "TRI1b") ["TRI1a"; "TRI2a"]) with false. change (one_of (Some "TRI1b") ["TRI1b"; "TRI2b"]) with true. cbv iota. unfold sc_table_21.
    eexists [_; _; _], _. reflexivity. }
  destruct T as (l1 & l2 & T).
  assert (PR : processed cell d "SC" tri tri_r (map (fun kv => (fst kv, vmat (snd kv) tri_r)) (l1 ++ ("N", V3 (-1 / 2) (-1 / 2) (1 / 2)) :: l2))).
  { rewrite <- RE. eapply (sc_crystal 2 "a" "P" t_P tri [Zv 0 0 0] tri t_P [Zv 0 0 0]);
      [reflexivity|reflexivity|exact E|exact DC|det_num|discriminate|count_points|number|reflexivity|exact BT|fold cell; rewrite CE; exact DC|intros HP _ _; apply V; exact HP|exact T|reflexivity]. }
  exists cell, d, tri, tri_r. eexists. eexists (vmat (V3 (-1 / 2) (-1 / 2) (1 / 2)) tri_r).
  split; [exact PR|]. do 2 (split; [reflexivity|]). split; [apply tri_reciprocal|].
  assert (X : 0 < 4 * (PI * PI)) by (pose proof PI_RGT_0; nra).
  split.
  { unfold pairwise_reduced, pair_reduced. rewrite D12, D13, D23, D1, D2, D3, !Rabs_right by lra. repeat split; lra. }
  split; [rewrite SA; lra|]. split.
  { apply V. split; [|apply get_params_val; exact BT]. destruct PR as (_ & (ca & GC) & _). exists ca. exact GC. }
  split; [rewrite map_app; apply in_or_app; right; left; reflexivity|].
  intros ZN. specialize (ZN (Zv (-1) 0 0)). revert ZN. clear - X. unfold tri_r, dist2, ofZv, mk. cbn [zx zy zz]. vunfold. intros ZN. lra.
Qed.
Print Assumptions C55_sc_TRI1b_refuted.
(* a triclinic crystal that meets the hypotheses of C55_sc_triclinic and C55_hpkot_triclinic *)
Definition tri2 : mat := mk (2/3) (-4/75) 0  0 (2/3) 0  (-4/15) (-92/375) 1.
Definition tri2_r : mat := mscale (2 * PI) (mk (3/2) 0 (2/5)  (3/25) (3/2) (2/5)  0 0 1).
Lemma tri2_reciprocal : get_reciprocal tri2 = Ok tri2_r.
Proof. apply reciprocal_unique; [unfold tri2; det_num|]. unfold tri2, tri2_r, mk. generalize PI. intros. vunfold. f_equal; f_equal; field. Qed.
Lemma tri2_r_dots : dot (row1 tri2_r) (row1 tri2_r) = 4 * (PI * PI) * (241/100) /\ dot (row2 tri2_r) (row2 tri2_r) = 4 * (PI * PI) * (6061/2500) /\
  dot (row3 tri2_r) (row3 tri2_r) = 4 * (PI * PI) /\ dot (row1 tri2_r) (row2 tri2_r) = 4 * (PI * PI) * (17/50) /\
  dot (row1 tri2_r) (row3 tri2_r) = 4 * (PI * PI) * (2/5) /\ dot (row2 tri2_r) (row3 tri2_r) = 4 * (PI * PI) * (2/5).
Proof. unfold tri2_r, mk. repeat split; vunfold; field. Qed.
Lemma tri2_facts : big tri2_r /\ pairwise_reduced tri2_r /\ palpha (params_val tri2_r) < 90 - / 10000 /\ pbeta (params_val tri2_r) < 90 - / 10000 /\ pgamma (params_val tri2_r) < 90 - / 10000 /\
  palpha (params_val tri2_r) < pgamma (params_val tri2_r) /\ pbeta (params_val tri2_r) < pgamma (params_val tri2_r).
Proof.
  destruct tri2_r_dots as (D1 & D2 & D3 & D12 & D13 & D23). assert (P3 : 3 < PI) by (pose proof PI2_3_2; lra). assert (PP : 9 < PI * PI) by nra.
  assert (B : big tri2_r) by (destruct tri2_r as [u v w]; cbn [row1 row2 row3] in *; apply big_M3; repeat split; apply norm_big; lra). destruct (big_pos _ B) as (Q1 & Q2 & Q3).
  assert (X : 0 < 4 * (PI * PI)) by lra. set (x := 4 * (PI * PI)) in *.
  assert (X2 : 0 < x * x) by nra. assert (X4 : 0 < x * x * (x * x)) by (apply Rmult_lt_0_compat; auto).
  split; [exact B|]. split. { unfold pairwise_reduced, pair_reduced. rewrite D12, D13, D23, D1, D2, D3, !Rabs_right by lra. repeat split; lra. }
  change (params_val tri2_r) with (Params (norm (row1 tri2_r)) (norm (row2 tri2_r)) (norm (row3 tri2_r)) (deg (row2 tri2_r) (row3 tri2_r)) (deg (row1 tri2_r) (row3 tri2_r)) (deg (row1 tri2_r) (row2 tri2_r))).
  cbn [palpha pbeta pgamma].
  split; [|split; [|split; [|split]]]; try (apply far_acute; auto; rewrite ?D12, ?D13, ?D23, ?D1, ?D2, ?D3; lra); apply order_deg; auto; rewrite ?D12, ?D13, ?D23, ?D1, ?D2, ?D3; lra.
Qed.
Example C55_sc_triclinic_case : exists cell d pts,
  processed cell d "SC" tri2 tri2_r pts /\ crystal_family d = "a" /\ centring_type d = "P" /\ get_reciprocal tri2 = Ok tri2_r /\ pairwise_reduced tri2_r /\
  0 <= spglib_angle_or_default d /\ sc_get_variation None cell one_atom (Data d) = Ok (Some "TRI1b") /\
  dot (row1 tri2_r) (row2 tri2_r) <= dot (row1 tri2_r) (row3 tri2_r) /\ dot (row1 tri2_r) (row2 tri2_r) <= dot (row2 tri2_r) (row3 tri2_r).
Proof.
  destruct tri2_facts as (B & RED & A1 & A2 & A3 & OA & OB). destruct tri2_r_dots as (D1 & D2 & D3 & D12 & D13 & D23).
  assert (X : 0 < 4 * (PI * PI)) by (pose proof PI_RGT_0; nra).
  assert (BT : big tri2) by (unfold tri2, mk; apply big_M3; repeat split; apply norm_big; unfold dot; cbn [vx vy vz]; lra).
  assert (DC : det tri2 <> 0) by (unfold tri2; det_num).
  assert (E : sc_conventional_no_hR tri2 "a" "P" (/ 10000) = Ok tri2).
  { change (sc_conventional_no_hR tri2 "a" "P" (/ 10000)) with (sc_conventional_a tri2 (/ 10000)). unfold sc_conventional_a. rewrite tri2_reciprocal. cbn [bind]. rewrite (get_params_val _ B). cbn [bind].
    unfold sign_matrix, andb3.
    destruct (Rltb_spec (palpha (params_val tri2_r)) 90); [|exfalso; lra]. destruct (Rltb_spec (pbeta (params_val tri2_r)) 90); [|exfalso; lra]. destruct (Rltb_spec (pgamma (params_val tri2_r)) 90); [|exfalso; lra].
    cbn [andb orb bind]. cbv zeta. assert (TE : tapply eye tri2_r = tri2_r) by (destruct tri2_r; apply tapply_eye). rewrite TE, (get_params_val _ B). cbn [bind].
    assert (CL : closest_to_90 (pgamma (params_val tri2_r)) (palpha (params_val tri2_r)) (pbeta (params_val tri2_r)) (pgamma (params_val tri2_r)) (/ 10000) = true).
    { unfold closest_to_90. apply orb_true_iff. right. apply andb_true_iff. split; [|apply cwt_le; lra]. apply Reqb_true. unfold max3. rewrite Rmax_right; [reflexivity|]. apply Rmax_lub; lra. }
    rewrite CL. cbn [bind]. rewrite (reciprocal_involution _ _ tri2_reciprocal). cbn [bind]. unfold tri2, mk. rewrite tapply_eye. reflexivity. }
  set (d := crystal_data 2 "a" "P" t_P tri2 [Zv 0 0 0]). set (cell := mmul (tr t_P) tri2).
  assert (CE : cell = tri2) by (unfold cell, t_P, tri2, mk; vunfold; f_equal; f_equal; field).
  assert (SA : spglib_angle_or_default d = / 10000).
  { unfold spglib_angle_or_default. cbn [d crystal_data angle_tolerance]. rewrite (proj2 (Reqb_true _ _) eq_refl). reflexivity. }
  assert (RE : rec_of (mmul (tr t_P) tri2) = tri2_r).
  { fold cell. rewrite CE. pose proof tri2_reciprocal as R. rewrite (get_reciprocal_ok _ DC) in R. unfold rec_of. congruence. }
  assert (V : sc_params None cell one_atom d tri2 (params_val tri2) -> sc_get_variation None cell one_atom (Data d) = Ok (Some "TRI1b")).
  { intros HP. apply (C39_triclinic _ _ _ _ _ _ _ _ _ (crystal_obtain 2 "a" "P" t_P tri2 _ None) eq_refl eq_refl HP tri2_reciprocal (get_params_val _ B)); fold d; rewrite SA; [lra|auto]. }
  assert (PR : exists pts, processed cell d "SC" tri2 tri2_r pts).
  { eexists. rewrite <- RE. eapply (sc_crystal 2 "a" "P" t_P tri2 [Zv 0 0 0] tri2 t_P [Zv 0 0 0]);
      [reflexivity|reflexivity|exact E|exact DC|det_num|discriminate|count_points|number|reflexivity|exact BT|fold cell; rewrite CE; exact DC|intros HP _ _; apply V; exact HP| |reflexivity].
    unfold sc_get_points. rewrite (get_params_val _ BT). reflexivity. }
  destruct PR as (pts & PR). exists cell, d, pts. split; [exact PR|]. do 2 (split; [reflexivity|]). split; [apply tri2_reciprocal|]. split; [exact RED|]. split; [rewrite SA; lra|].
  split; [|rewrite D12, D13, D23; lra].
  apply V. split; [|apply get_params_val; exact BT]. destruct PR as (_ & (ca & GC) & _). exists ca. exact GC.
Qed.
Example C55_hpkot_triclinic_case : exists lib d ca s,
  obtain_data (Some lib) tri2 one_atom (Data d) = Ok d /\ crystal_family d = "a" /\ centring_type d = "P" /\
  get_conventional (Some lib) tri2 one_atom "HPKOT" (Data d) = Ok (tri2, ca) /\ get_reciprocal tri2 = Ok tri2_r /\ pairwise_reduced tri2_r /\
  hpkot_get_extended_bl_symbol (Some lib) tri2 one_atom (Data d) = Ok s /\ s = "aP3".
Proof.
  destruct tri2_facts as (B & RED & A1 & A2 & A3 & OA & OB). destruct tri2_r_dots as (D1 & D2 & D3 & D12 & D13 & D23).
  assert (X : 0 < 4 * (PI * PI)) by (pose proof PI_RGT_0; nra).
  assert (BT : big tri2) by (unfold tri2, mk; apply big_M3; repeat split; apply norm_big; unfold dot; cbn [vx vy vz]; lra).
  assert (DC : det tri2 <> 0) by (unfold tri2; det_num).
  set (lib := Spglib (fun _ _ _ _ _ => None) (fun _ _ _ _ _ => None) (fun m _ => Ok m)).
  set (d := data_for tri2 "a" "P"). assert (O : obtain_data (Some lib) tri2 one_atom (Data d) = Ok d) by apply one_atom_obtain.
  assert (E : hpkot_conventional_a (lib_niggli (Some lib)) tri2 = Ok tri2).
  { unfold hpkot_conventional_a. rewrite tri2_reciprocal. cbn [bind]. change (get_niggli (lib_niggli (Some lib)) tri2_r (/ 100000) "spglib" 100000) with (Ok tri2_r). cbn [bind].
    rewrite (reciprocal_involution _ _ tri2_reciprocal). cbn [bind]. rewrite D12, D13, D23, !Rabs_right by lra.
    unfold dots_matrix. set (x := 4 * (PI * PI)) in *.
    destruct (Rleb_spec (x * (2/5)) (x * (2/5))), (Rleb_spec (x * (2/5)) (x * (17/50))), (Rleb_spec (x * (17/50)) (x * (2/5))); try (exfalso; lra). cbn [andb bind]. cbv zeta.
    assert (TE : tapply eye tri2 = tri2) by (unfold tri2, mk; apply tapply_eye). rewrite TE, tri2_reciprocal. cbn [bind]. rewrite (get_params_val _ B). cbn [bind].
    unfold sign_matrix, andb3.
    destruct (Rltb_spec (palpha (params_val tri2_r)) 90); [|exfalso; lra]. destruct (Rltb_spec (pbeta (params_val tri2_r)) 90); [|exfalso; lra]. destruct (Rltb_spec (pgamma (params_val tri2_r)) 90); [|exfalso; lra].
    cbn [andb orb bind]. rewrite TE. reflexivity. }
  assert (GC : exists ca, get_conventional (Some lib) tri2 one_atom "HPKOT" (Data d) = Ok (tri2, ca)).
  { unfold get_conventional. rewrite O. cbn [bind]. unfold conventional_structure. cbv zeta. change (lower "HPKOT") with "hpkot".
    cbn [String.eqb Ascii.eqb Bool.eqb orb andb]. cbn [d data_for crystal_family conventional_cell]. cbn [String.eqb Ascii.eqb Bool.eqb orb andb]. rewrite E. cbn [bind]. unfold reexpress. rewrite (proj2 (minv_ok _ _) (conj DC eq_refl)). cbn [bind].
    cbn [data_for d conventional_types original_types]. rewrite one_atom_made. cbn [bind]. eauto. }
  destruct GC as (ca & GC). exists lib, d, ca, "aP3". split; [exact O|]. do 2 (split; [reflexivity|]). split; [exact GC|]. split; [apply tri2_reciprocal|]. split; [exact RED|]. split; [|reflexivity].
  assert (HP : hpkot_params (Some lib) tri2 one_atom d tri2 (params_val tri2)) by (split; [eauto|apply get_params_val; exact BT]).
  apply (C40_triclinic _ _ _ _ _ _ _ _ _ O eq_refl eq_refl HP tri2_reciprocal (get_params_val _ B)). lra.
Qed.
Example C55_sc_tetragonal_case : let c := mk 2 0 0 0 2 0 0 0 3 in
  exists d cell r pts, processed cell d "SC" c r pts /\ crystal_family d = "t" /\ centring_type d = "I" /\ tetragonal c.
Proof.
  intros c. crystal 139%Z "t" "I" t_I c [Zv 0 0 0; Zv 1 1 1]. assert (B : big c) by (unfold c; apply big_diag; lra).
  destruct (norm_diag 2 2 3) as (P1 & P2 & P3 & N1 & N2 & N3 & RA); try lra. fold c in P1, P2, P3, N1, N2, N3, RA.
  assert (DC : det c <> 0) by (apply inverse_diag; lra).
  eexists. split; [|split; [reflexivity|split; [reflexivity|split; [exact RA|congruence]]]].
  eapply (sc_crystal 139 "t" "I" t_I c _ c t_I [Zv 0 0 0; Zv 1 1 1]); [reflexivity|reflexivity|reflexivity|exact DC|det_num|discriminate|count_points|number|reflexivity|exact B| | | |].
  - rewrite det_mmul, det_tr. intros Z. apply Rmult_integral in Z. destruct Z; [revert H; det_num|auto].
  - intros HP _ _. apply (C39_tetragonal _ _ _ _ _ _ _ (crystal_obtain 139 "t" "I" t_I c _ None) eq_refl eq_refl HP). rewrite P1, P3. lra.
  - unfold sc_get_points. rewrite (get_params_val _ B). cbn [bind]. cbv zeta. rewrite P1, P2, P3.
    match goal with |- context [lookup ?l SC_BRAVAIS_LATTICE_SHORT_NAMES] => change (lookup l SC_BRAVAIS_LATTICE_SHORT_NAMES) with (Some "BCT") end.
    cbv iota. cbn [String.eqb Ascii.eqb Bool.eqb is_variation]. unfold sc_table_7, sq. repeat reqb0. reflexivity.
  - reflexivity.
Qed.
Example C55_sc_cubic_case : let c := mk 2 0 0 0 2 0 0 0 2 in
  exists d cell r pts, processed cell d "SC" c r pts /\ crystal_family d = "c" /\ centring_type d = "F" /\ cubic c.
Proof.
  intros c. crystal 225%Z "c" "F" t_F c [Zv 0 0 0; Zv 1 0 0; Zv 0 1 0; Zv 0 0 1]. assert (B : big c) by (unfold c; apply big_diag; lra).
  destruct (norm_diag 2 2 2) as (P1 & P2 & P3 & N1 & N2 & N3 & RA); try lra. fold c in P1, P2, P3, N1, N2, N3, RA.
  assert (DC : det c <> 0) by (apply inverse_diag; lra).
  eexists. split; [|split; [reflexivity|split; [reflexivity|split; [split; [exact RA|congruence]|congruence]]]].
  eapply (sc_crystal 225 "c" "F" t_F c _ c t_F [Zv 0 0 0; Zv 1 0 0; Zv 0 1 0; Zv 0 0 1] (Some "FCC")); [reflexivity|reflexivity|reflexivity|exact DC|det_num|discriminate|count_points|number|reflexivity|exact B| | | |reflexivity].
  - rewrite det_mmul, det_tr. intros Z. apply Rmult_integral in Z. destruct Z; [revert H; det_num|auto].
  - intros HP _ _. unfold sc_get_variation. rewrite crystal_obtain. reflexivity.
  - unfold sc_get_points. rewrite (get_params_val _ B). reflexivity.
Qed.
Example C55_sc_hexagonal_case : let c := mk 2 0 0 (-1) (sqrt 3) 0 0 0 5 in
  exists d cell r pts, processed cell d "SC" c r pts /\ crystal_family d = "h" /\ centring_type d = "P" /\ hexagonal c.
Proof.
  intros c. crystal 194%Z "h" "P" t_P c [Zv 0 0 0].
  assert (S3 : sqrt 3 * sqrt 3 = 3) by (apply sqrt_sqrt; lra). assert (P3 : 0 < sqrt 3) by (apply sqrt_lt_R0; lra).
  assert (B : big c) by (unfold c, mk; apply big_M3; repeat split; apply norm_big; unfold dot; cbn [vx vy vz]; lra).
  assert (DC : det c <> 0) by (unfold c, mk; vunfold; nra).
  eexists. split; [|split; [reflexivity|split; [reflexivity|]]].
  - eapply (sc_crystal 194 "h" "P" t_P c _ c t_P [Zv 0 0 0] (Some "HEX")); [reflexivity|reflexivity|reflexivity|exact DC|det_num|discriminate|count_points|number|reflexivity|exact B| | | |reflexivity].
    + rewrite det_mmul, det_tr. intros Z. apply Rmult_integral in Z. destruct Z; [revert H; det_num|auto].
    + intros HP _ _. unfold sc_get_variation. rewrite crystal_obtain. reflexivity.
    + unfold sc_get_points. rewrite (get_params_val _ B). reflexivity.
  - unfold hexagonal, norm, c, mk. cbn [row1 row2 row3]. unfold dot. cbn [vx vy vz]. repeat split; try lra. f_equal. lra.
Qed.
