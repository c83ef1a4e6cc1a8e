(* P_Monoclinic.v : properties C34-C36 (SC monoclinic, triclinic and rhombohedral settings). *)
From Verif Require Import Base M_Strings M_Dict M_Numerical M_Geometry M_Cell M_Niggli M_Atoms T_Tables M_Spglib
  M_Conventional F_Geometry F_Niggli F_Voronoi F_Strings F_Atoms S_Crystal F_Conventional P_Conventional.
Open Scope string_scope.
Open Scope list_scope.
Open Scope R_scope.

Lemma cwt_eq x y e : cwt x CEq y e = true <-> y - e <= x <= y + e.
Proof. unfold cwt. destruct (Rltb_spec x (y - e)), (Rltb_spec y (x - e)); cbn; split; intros; try discriminate; auto; lra. Qed.
Lemma cwt_eq_false x y e : cwt x CEq y e = false <-> x < y - e \/ y + e < x.
Proof. unfold cwt. destruct (Rltb_spec x (y - e)), (Rltb_spec y (x - e)); cbn; split; intros; try discriminate; auto; lra. Qed.
Lemma cwt_le x y e : cwt x CLe y e = true <-> x <= y + e.
Proof. unfold cwt. destruct (Rltb_spec y (x - e)); cbn; split; intros; try discriminate; auto; lra. Qed.
Lemma cwt_le_false x y e : cwt x CLe y e = false <-> y + e < x.
Proof. unfold cwt. destruct (Rltb_spec y (x - e)); cbn; split; intros; try discriminate; auto; lra. Qed.
Lemma cwt_ge x y e : cwt x CGe y e = true <-> y - e <= x.
Proof. unfold cwt. destruct (Rltb_spec x (y - e)); cbn; split; intros; try discriminate; auto; lra. Qed.
Lemma cwt_ge_false x y e : cwt x CGe y e = false <-> x < y - e.
Proof. unfold cwt. destruct (Rltb_spec x (y - e)); cbn; split; intros; try discriminate; auto; lra. Qed.
Lemma cwt_ne_false x y e : cwt x CNe y e = false <-> y - e <= x <= y + e.
Proof. unfold cwt. destruct (Rltb_spec x (y - e)), (Rltb_spec y (x - e)); cbn; split; intros; try discriminate; auto; lra. Qed.

(* ================= C34: monoclinic ================= *)
(* the angle is 90 degrees within the tolerance *)
Definition right_angle (eps x : R) := 90 - eps <= x <= 90 + eps.
Definition sc_monoclinic (centring : string) (eps : R) (p : params) : Prop :=
  right_angle eps (pbeta p) /\ right_angle eps (pgamma p) /\ palpha p <= 90 + eps /\
  (centring <> "C" -> pb p <= pc p).

(* parameters after the elementary moves *)
Lemma big_M3 a b c : big (M3 a b c) <-> FLOAT_EPS < norm a /\ FLOAT_EPS < norm b /\ FLOAT_EPS < norm c.
Proof. unfold big; cbn [row1 row2 row3]. tauto. Qed.
Lemma val_M3 a b c : params_val (M3 a b c) = Params (norm a) (norm b) (norm c) (deg b c) (deg a c) (deg a b).
Proof. reflexivity. Qed.

Lemma m_steps a b c ce e c' : 0 <= e -> sc_conventional_m (M3 a b c) ce e = Ok c' ->
  big c' /\ sc_monoclinic ce e (params_val c').
Proof.
  intros He H. unfold sc_conventional_m in H. apply bind_ok in H. destruct H as (p & P & H).
  apply get_params_inv in P. destruct P as (B & ->).
  pose proof (big_pos _ B) as (P1 & P2 & P3). cbn [row1 row2 row3] in P1, P2, P3.
  rewrite big_M3 in B. destruct B as (B1 & B2 & B3).
  apply bind_ok in H. destruct H as (m1 & M1 & H). cbv zeta in H.
  rewrite val_M3 in M1. cbn [palpha pbeta pgamma] in M1.
  (* step 1 *)
  assert (S1 : exists x y z, tapply m1 (M3 a b c) = M3 x y z /\ FLOAT_EPS < norm x /\ FLOAT_EPS < norm y /\ FLOAT_EPS < norm z /\
               right_angle e (deg x z) /\ right_angle e (deg x y)).
  { unfold right_angle. destruct (cwt (deg a c) CEq 90 e) eqn:CB; destruct (cwt (deg a b) CEq 90 e) eqn:CG; cbn [andb] in M1.
    - injection M1 as <-. exists a, b, c. rewrite tapply_eye. apply cwt_eq in CB. apply cwt_eq in CG. auto 10.
    - destruct (cwt (deg b c) CEq 90 e) eqn:CA; cbn [andb] in M1; [|discriminate].
      destruct (String.eqb ce "C"); [discriminate|]. injection M1 as <-. exists c, a, b. rewrite tapply_312.
      apply cwt_eq in CA. apply cwt_eq in CB. rewrite (deg_sym c b), (deg_sym c a). auto 10.
    - destruct (cwt (deg b c) CEq 90 e) eqn:CA; cbn [andb] in M1; [|discriminate].
      injection M1 as <-. exists b, (vneg a), c. rewrite tapply_rot_ab.
      apply cwt_eq in CA. apply cwt_eq in CG. rewrite norm_neg, deg_neg_r, (deg_sym b a) by auto.
      repeat split; auto; lra.
    - rewrite !andb_false_r in M1. discriminate. }
  destruct S1 as (x & y & z & E & X & Y & Z & RB & RG). rewrite E in H. clear M1 E a b c B1 B2 B3 P1 P2 P3.
  apply bind_ok in H. destruct H as (p1 & P & H). rewrite get_params_val in P by (apply big_M3; auto).
  injection P as <-. rewrite val_M3 in H. cbn [pb pc] in H.
  pose proof FLOAT_EPS_pos.
  (* step 2 *)
  assert (S2 : exists u v w, tapply (if Rleb (norm y) (norm z) || String.eqb ce "C" then eye else swap_bc) (M3 x y z) = M3 u v w /\
               FLOAT_EPS < norm u /\ FLOAT_EPS < norm v /\ FLOAT_EPS < norm w /\
               right_angle e (deg u w) /\ right_angle e (deg u v) /\ (ce <> "C" -> norm v <= norm w)).
  { unfold right_angle in *. destruct (Rleb_spec (norm y) (norm z)); cbn [orb].
    - exists x, y, z. rewrite tapply_eye. auto 10.
    - destruct (String.eqb_spec ce "C").
      + exists x, y, z. rewrite tapply_eye. repeat split; auto; try lra; try tauto; intros; contradiction.
      + exists (vneg x), z, y. rewrite tapply_swap_bc, norm_neg, !deg_neg_l by lra. repeat split; auto; lra. }
  destruct S2 as (u & v & w & E & U & V & W & RB' & RG' & LE). rewrite E in H.
  apply bind_ok in H. destruct H as (p2 & P & H). rewrite get_params_val in P by (apply big_M3; auto).
  injection P as <-. rewrite val_M3 in H. cbn [palpha] in H.
  (* step 3 *)
  destruct (cwt (deg v w) CLe 90 e) eqn:CA; injection H as <-.
  - rewrite tapply_eye. split; [apply big_M3; auto|]. apply cwt_le in CA. unfold sc_monoclinic. rewrite val_M3. auto.
  - rewrite tapply_flip_ab. split; [apply big_M3; rewrite !norm_neg; auto|]. apply cwt_le_false in CA.
    unfold sc_monoclinic, right_angle in *. rewrite val_M3. cbn [pb pc palpha pbeta pgamma].
    rewrite !norm_neg, !deg_neg_l, deg_neg_r by (rewrite ?norm_neg; lra).
    repeat split; auto; lra.
Qed.
Theorem C34_standard_setting : forall spglib cell atoms cv arg d c' new,
  obtain_data spglib cell atoms arg = Ok d -> crystal_family d = "m" -> lower cv = "sc" ->
  0 <= spglib_angle_or_default d ->
  get_conventional spglib cell atoms cv arg = Ok (c', new) ->
  exists p, get_params c' = Ok p /\ sc_monoclinic (centring_type d) (spglib_angle_or_default d) p.
Proof.
  intros spglib cell atoms cv arg d c' new D F L He H.
  destruct (get_conventional_sc _ _ _ _ _ _ D L (start_not_h _ _ _ F ltac:(discriminate))) as (A & _).
  apply A in H. rewrite F in H.
  change (sc_conventional_no_hR (conventional_cell d) "m" (centring_type d) (spglib_angle_or_default d))
    with (sc_conventional_m (conventional_cell d) (centring_type d) (spglib_angle_or_default d)) in H.
  destruct (conventional_cell d) as [x y z]. apply m_steps in H; auto. destruct H as (B & SM).
  exists (params_val c'). split; auto. apply get_params_val; auto.
Qed.
Print Assumptions C34_standard_setting.

(* The internal error is raised exactly when the angles are not those of a monoclinic cell in a
   supported position: two right angles are needed, and for a C-centred lattice the oblique angle
   must not be gamma. *)
Definition monoclinic_position (centring : string) (eps : R) (p : params) : Prop :=
  (right_angle eps (pbeta p) /\ right_angle eps (pgamma p)) \/
  (right_angle eps (palpha p) /\ right_angle eps (pbeta p) /\ centring <> "C") \/
  (right_angle eps (palpha p) /\ right_angle eps (pgamma p)).
Lemma m_total cell ce e p : get_params cell = Ok p ->
  (monoclinic_position ce e p -> exists c', sc_conventional_m cell ce e = Ok c') /\
  (~ monoclinic_position ce e p -> sc_conventional_m cell ce e = Err PotentialBugError).
Proof.
  intros P. pose proof P as Q. apply get_params_inv in Q. destruct Q as (B & EP).
  assert (REST : forall m1, (m1 = eye \/ m1 = cyc_312 \/ m1 = rot_ab) -> exists c',
    (do p1 <- get_params (tapply m1 cell);
     let m2 := if Rleb (pb p1) (pc p1) || String.eqb ce "C" then eye else swap_bc in
     let cell2 := tapply m2 (tapply m1 cell) in
     do p2 <- get_params cell2;
     let m3 := if cwt (palpha p2) CLe 90 e then eye else flip_ab in
     Ok (tapply m3 cell2)) = Ok c').
  { intros m1 M. assert (B1 : big (tapply m1 cell)).
    { destruct cell as [x y z]. rewrite big_M3 in B.
      destruct M as [->|[->| ->]]; rewrite ?tapply_eye, ?tapply_312, ?tapply_rot_ab; apply big_M3; rewrite ?norm_neg; tauto. }
    rewrite get_params_val by auto. cbn [bind]. cbv zeta. destruct (tapply m1 cell) as [x y z]. rewrite big_M3 in B1.
    rewrite get_params_val; [cbn [bind]; eauto|].
    destruct (_ || _); rewrite ?tapply_eye, ?tapply_swap_bc; apply big_M3; rewrite ?norm_neg; tauto. }
  unfold sc_conventional_m. rewrite P. cbn [bind]. unfold monoclinic_position, right_angle.
  destruct (cwt (pbeta p) CEq 90 e) eqn:CB; destruct (cwt (pgamma p) CEq 90 e) eqn:CG; cbn [andb];
    [| |destruct (cwt (palpha p) CEq 90 e) eqn:CA; cbn [andb] | rewrite !andb_false_r ].
  - cbn [bind]. rewrite cwt_eq in CB, CG. split; [intros _; apply REST; auto|tauto].
  - destruct (cwt (palpha p) CEq 90 e) eqn:CA; cbn [andb].
    + destruct (String.eqb_spec ce "C") as [E|E]; cbn [bind]; rewrite cwt_eq in CB, CA; rewrite cwt_eq_false in CG.
      * split; [|auto]. intros [?|[?|?]]; [lra|tauto|lra].
      * split; [intros _; apply REST; auto|tauto].
    + cbn [bind]. rewrite cwt_eq in CB. rewrite cwt_eq_false in CG, CA. split; [|auto]. intros [?|[?|?]]; lra.
  - cbn [bind]. rewrite cwt_eq in CA, CG. split; [intros _; apply REST; auto|tauto].
  - cbn [bind]. rewrite cwt_eq_false in CB, CA. split; [|auto]. intros [?|[?|?]]; lra.
  - cbn [bind]. rewrite cwt_eq_false in CB, CG. split; [|auto]. intros [?|[?|?]]; lra.
Qed.
Theorem C34_internal_error_iff : forall spglib cell atoms cv arg d p,
  obtain_data spglib cell atoms arg = Ok d -> crystal_family d = "m" -> lower cv = "sc" ->
  get_params (conventional_cell d) = Ok p ->
  (get_conventional spglib cell atoms cv arg = Err PotentialBugError <->
   ~ monoclinic_position (centring_type d) (spglib_angle_or_default d) p).
Proof.
  intros spglib cell atoms cv arg d p D F L P.
  destruct (get_conventional_sc _ _ _ _ _ _ D L (start_not_h _ _ _ F ltac:(discriminate))) as (_ & A & C).
  rewrite F in A, C.
  change (sc_conventional_no_hR (conventional_cell d) "m" (centring_type d) (spglib_angle_or_default d))
    with (sc_conventional_m (conventional_cell d) (centring_type d) (spglib_angle_or_default d)) in A, C.
  destruct (m_total _ (centring_type d) (spglib_angle_or_default d) _ P) as (T1 & T2). split.
  - intros H M. apply C in H. destruct (T1 M) as (c' & E). congruence.
  - intros H. apply A, T2, H.
Qed.
Print Assumptions C34_internal_error_iff.

(* a monoclinic crystal in the setting spglib uses (beta oblique) *)
Lemma deg_90 u v : dot u v = 0 -> deg u v = 90.
Proof.
  intros H. unfold deg, angle_rad. rewrite H. unfold Rdiv. rewrite Rmult_0_l, acos_0. unfold TODEGREES. field. apply PI_neq0.
Qed.
Lemma one_atom_success fa ce cell c' :
  starts_from_primitive (data_for cell fa ce) "SC" = false ->
  sc_conventional_no_hR cell fa ce (/ 10000) = Ok c' -> det cell <> 0 ->
  exists new, get_conventional None cell one_atom "SC" (Data (data_for cell fa ce)) = Ok (c', new).
Proof.
  intros NP E D. unfold get_conventional. rewrite one_atom_obtain. cbn [bind]. unfold conventional_structure. cbv zeta.
  change (lower "SC") with "sc".
  change (String.eqb "sc" "spglib" || String.eqb "sc" "hpkot") with false. change (String.eqb "sc" "sc") with true. cbv iota.
  unfold starts_from_primitive in NP. change (lower "SC") with "sc" in NP. change (String.eqb "sc" "sc") with true in NP. cbn [andb] in NP.
  rewrite NP. assert (A : spglib_angle_or_default (data_for cell fa ce) = / 10000).
  { unfold spglib_angle_or_default. cbn [data_for angle_tolerance]. rewrite (proj2 (Reqb_true _ _) eq_refl). reflexivity. }
  rewrite A. cbn [data_for conventional_cell crystal_family centring_type conventional_positions conventional_types original_types]. rewrite E. cbn [bind].
  apply no_hR_moved in E. destruct E as (k & K & C).
  assert (D' : det c' <> 0) by (rewrite C, det_mmul, ofZ_det, K; lra).
  unfold reexpress. rewrite (proj2 (minv_ok _ _) (conj D' eq_refl)). cbn [bind]. rewrite one_atom_made. cbn [bind]. eauto.
Qed.
Lemma norm_big v : / 100 <= dot v v -> FLOAT_EPS < norm v.
Proof.
  intros H. apply Rlt_le_trans with (/ 10); [unfold FLOAT_EPS; lra|]. unfold norm.
  rewrite <- (sqrt_square (/ 10)) by lra. apply sqrt_le_1_alt. lra.
Qed.
Example C34_case : exists c' new p,
  get_conventional None (mk 2 0 0 0 3 0 (-1) 0 4) one_atom "SC" (Data (data_for (mk 2 0 0 0 3 0 (-1) 0 4) "m" "P")) = Ok (c', new) /\
  get_params c' = Ok p /\ sc_monoclinic "P" (/ 10000) p.
Proof.
  set (c := mk 2 0 0 0 3 0 (-1) 0 4).
  assert (B : big c) by (unfold c, mk; apply big_M3; repeat split; apply norm_big; unfold dot; cbn [vx vy vz]; lra).
  assert (G : get_params c = Ok (params_val c)) by (apply get_params_val; auto).
  destruct (m_total c "P" (/ 10000) _ G) as (T & _).
  destruct T as (c' & E).
  { right; right. unfold right_angle, params_val. cbn [palpha pgamma]. rewrite !deg_90 by (unfold c; vunfold; lra). lra. }
  destruct (one_atom_success "m" "P" c c') as (new & H).
  - reflexivity.
  - exact E.
  - unfold c; vunfold; lra.
  - exists c', new. assert (E' := E). unfold c, mk in E'. apply m_steps in E'; [|lra]. destruct E' as (B' & SM).
    exists (params_val c'). split; [exact H|]. split; [apply get_params_val; auto|exact SM].
Qed.

(* ================= C35: triclinic ================= *)
(* all reciprocal angles acute, or none of them *)
Definition all_acute_or_none (p : params) : Prop := uniform (palpha p) (pbeta p) (pgamma p).

Lemma sign_step u v w : big (M3 u v w) ->
  exists m x y z, sign_matrix (deg v w) (deg u w) (deg u v) = Ok m /\
    tapply m (M3 u v w) = M3 x y z /\ big (M3 x y z) /\
    uniform (deg y z) (deg x z) (deg x y) /\
    Rabs (dot y z) = Rabs (dot v w) /\ Rabs (dot x z) = Rabs (dot u w) /\ Rabs (dot x y) = Rabs (dot u v) /\
    (forall c, get_reciprocal c = Ok (M3 u v w) -> get_reciprocal (tapply m c) = Ok (M3 x y z)).
Proof.
  intros B. pose proof (big_pos _ B) as (P1 & P2 & P3). cbn [row1 row2 row3] in *. rewrite big_M3 in B.
  destruct (sign_cases (deg v w) (deg u w) (deg u v)) as [(E & U) | [(E & U) | [(E & U) | (E & U)]]]; rewrite E.
  - exists eye, u, v, w. rewrite tapply_eye. do 2 (split; [reflexivity|]). split; [apply big_M3; auto|].
    split; [exact U|]. do 3 (split; [reflexivity|]). intros [a b c] H. rewrite tapply_eye. exact H.
  - exists flip_ab, (vneg u), (vneg v), w. rewrite tapply_flip_ab. do 2 (split; [reflexivity|]).
    split; [apply big_M3; rewrite ?norm_neg; auto|].
    rewrite !deg_neg2, !deg_neg_l, !dot_neg_l, !dot_neg_r, !Rabs_Ropp by auto.
    split; [exact U|]. do 3 (split; [reflexivity|]). intros [a b c] H. rewrite tapply_flip_ab. apply recip_flip_ab; auto.
  - exists flip_ac, (vneg u), v, (vneg w). rewrite tapply_flip_ac. do 2 (split; [reflexivity|]).
    split; [apply big_M3; rewrite ?norm_neg; auto|].
    rewrite !deg_neg2, !deg_neg_l, !deg_neg_r, !dot_neg_l, !dot_neg_r, !Rabs_Ropp by auto.
    split; [exact U|]. do 3 (split; [reflexivity|]). intros [a b c] H. rewrite tapply_flip_ac. apply recip_flip_ac; auto.
  - exists flip_bc, u, (vneg v), (vneg w). rewrite tapply_flip_bc. do 2 (split; [reflexivity|]).
    split; [apply big_M3; rewrite ?norm_neg; auto|].
    rewrite !deg_neg2, !deg_neg_r, !dot_neg_l, !dot_neg_r, !Rabs_Ropp by auto.
    split; [exact U|]. do 3 (split; [reflexivity|]). intros [a b c] H. rewrite tapply_flip_bc. apply recip_flip_bc; auto.
Qed.
(* the angle x is, within eps, the one closest to 90 degrees among the three *)
Definition closest90 (eps x y z : R) : Prop :=
  Rabs (x - 90) <= Rabs (y - 90) + eps /\ Rabs (x - 90) <= Rabs (z - 90) + eps.
Lemma closest_ok x al be ga eps : 0 <= eps -> uniform al be ga -> (x = al \/ x = be \/ x = ga) ->
  closest_to_90 x al be ga eps = true ->
  Rabs (x - 90) <= Rabs (al - 90) + eps /\ Rabs (x - 90) <= Rabs (be - 90) + eps /\ Rabs (x - 90) <= Rabs (ga - 90) + eps.
Proof.
  intros He U X C. unfold closest_to_90, min3, max3 in C. apply orb_true_iff in C.
  assert (Q : (x <= al /\ x <= be /\ x <= ga /\ 90 - eps <= x) \/ (al <= x /\ be <= x /\ ga <= x /\ x <= 90 + eps)).
  { destruct C as [C|C]; apply andb_true_iff in C; destruct C as (C1 & C2); apply Reqb_true in C1.
    - apply cwt_ge in C2. left. pose proof (Rmin_l (Rmin al be) ga). pose proof (Rmin_r (Rmin al be) ga).
      pose proof (Rmin_l al be). pose proof (Rmin_r al be). lra.
    - apply cwt_le in C2. right. pose proof (Rmax_l (Rmax al be) ga). pose proof (Rmax_r (Rmax al be) ga).
      pose proof (Rmax_l al be). pose proof (Rmax_r al be). lra. }
  clear C. unfold uniform in U. unfold Rabs.
  destruct (Rcase_abs (x - 90)), (Rcase_abs (al - 90)), (Rcase_abs (be - 90)), (Rcase_abs (ga - 90)); lra.
Qed.
Lemma closest_exists al be ga eps : 0 <= eps -> uniform al be ga ->
  closest_to_90 ga al be ga eps = true \/ closest_to_90 be al be ga eps = true \/ closest_to_90 al al be ga eps = true.
Proof.
  intros He U. unfold closest_to_90.
  assert (MI : min3 al be ga = ga \/ min3 al be ga = be \/ min3 al be ga = al).
  { unfold min3, Rmin. repeat match goal with |- context [Rle_dec ?a ?b] => destruct (Rle_dec a b) end; auto. }
  assert (MA : max3 al be ga = ga \/ max3 al be ga = be \/ max3 al be ga = al).
  { unfold max3, Rmax. repeat match goal with |- context [Rle_dec ?a ?b] => destruct (Rle_dec a b) end; auto. }
  destruct U as [U|U].
  - assert (T : forall x, x < 90 -> max3 al be ga = x -> Reqb x (max3 al be ga) && cwt x CLe 90 eps = true).
    { intros x L E. apply andb_true_iff. split; [apply Reqb_true; auto|apply cwt_le; lra]. }
    destruct MA as [E|[E|E]]; [left|right; left|right; right]; apply orb_true_iff; right; apply T; auto; lra.
  - assert (T : forall x, 90 <= x -> min3 al be ga = x -> Reqb x (min3 al be ga) && cwt x CGe 90 eps = true).
    { intros x L E. apply andb_true_iff. split; [apply Reqb_true; auto|apply cwt_ge; lra]. }
    destruct MI as [E|[E|E]]; [left|right; left|right; right]; apply orb_true_iff; left; apply T; auto; lra.
Qed.
Lemma uniform_cyc al be ga : uniform al be ga -> uniform be ga al.
Proof. unfold uniform. tauto. Qed.

Lemma sca_spec c e : 0 <= e ->
  (forall c', sc_conventional_a c e = Ok c' ->
    exists r, get_reciprocal c' = Ok r /\ big r /\ all_acute_or_none (params_val r) /\
      closest90 e (pgamma (params_val r)) (palpha (params_val r)) (pbeta (params_val r))) /\
  sc_conventional_a c e <> Err PotentialBugError.
Proof.
  intros He. unfold sc_conventional_a. destruct (get_reciprocal c) as [[u v w]|er] eqn:R.
  2:{ cbn [bind]. split; [discriminate|]. intros H. unfold get_reciprocal, minv in R. destruct (Reqb (det c) 0); cbn in R; congruence. }
  cbn [bind]. destruct (get_params_cases (M3 u v w)) as [(p & P)|P]; rewrite P; cbn [bind]; [|split; discriminate].
  apply get_params_inv in P. destruct P as (B & ->). rewrite val_M3. cbn [palpha pbeta pgamma].
  destruct (sign_step u v w B) as (m & x & y & z & M & T & B' & U & _ & _ & _ & RC). rewrite M. cbn [bind]. cbv zeta.
  rewrite T, get_params_val by auto. cbn [bind]. rewrite val_M3. cbn [palpha pbeta pgamma].
  pose proof (RC c R) as RR. apply reciprocal_involution in RR.
  rewrite RR. destruct (tapply m c) as [a1 b1 c1] eqn:TC. apply reciprocal_involution in RR.
  pose proof (closest_exists _ _ _ e He U) as CE.
  assert (CO := fun x0 X => closest_ok x0 _ _ _ e He U X). clear M T.
  destruct (closest_to_90 (deg x y) (deg y z) (deg x z) (deg x y) e) eqn:C1.
  { cbn [bind]. rewrite tapply_eye. split; [|discriminate]. intros c' H. injection H as <-.
    exists (M3 x y z). split; auto. split; auto. unfold all_acute_or_none, closest90. rewrite val_M3. cbn [palpha pbeta pgamma].
    split; auto. destruct (CO (deg x y)) as (A1 & A2 & A3); auto. }
  destruct (closest_to_90 (deg x z) (deg y z) (deg x z) (deg x y) e) eqn:C2.
  { cbn [bind]. rewrite tapply_312. split; [|discriminate]. intros c' H. injection H as <-.
    exists (M3 z x y). split; [apply recip_312; auto|]. rewrite big_M3 in B'. split; [apply big_M3; tauto|].
    unfold all_acute_or_none, closest90. rewrite val_M3. cbn [palpha pbeta pgamma].
    rewrite (deg_sym z y), (deg_sym z x). split; [apply uniform_cyc, uniform_cyc; auto|].
    destruct (CO (deg x z)) as (A1 & A2 & A3); auto. }
  destruct (closest_to_90 (deg y z) (deg y z) (deg x z) (deg x y) e) eqn:C3.
  { cbn [bind]. rewrite tapply_231. split; [|discriminate]. intros c' H. injection H as <-.
    exists (M3 y z x). split; [apply recip_231; auto|]. rewrite big_M3 in B'. split; [apply big_M3; tauto|].
    unfold all_acute_or_none, closest90. rewrite val_M3. cbn [palpha pbeta pgamma].
    rewrite (deg_sym z x), (deg_sym y x). split; [apply uniform_cyc; auto|].
    destruct (CO (deg y z)) as (A1 & A2 & A3); auto. }
  exfalso. destruct CE as [CE|[CE|CE]]; discriminate.
Qed.
Theorem C35_sc_setting : forall spglib cell atoms cv arg d c' new,
  obtain_data spglib cell atoms arg = Ok d -> crystal_family d = "a" -> lower cv = "sc" ->
  0 <= spglib_angle_or_default d ->
  get_conventional spglib cell atoms cv arg = Ok (c', new) ->
  exists r p, get_reciprocal c' = Ok r /\ get_params r = Ok p /\ all_acute_or_none p /\
    closest90 (spglib_angle_or_default d) (pgamma p) (palpha p) (pbeta p).
Proof.
  intros spglib cell atoms cv arg d c' new D F L He H.
  destruct (get_conventional_sc _ _ _ _ _ _ D L (start_not_h _ _ _ F ltac:(discriminate))) as (A & _).
  apply A in H. rewrite F in H.
  change (sc_conventional_no_hR (conventional_cell d) "a" (centring_type d) (spglib_angle_or_default d))
    with (sc_conventional_a (conventional_cell d) (spglib_angle_or_default d)) in H.
  destruct (sca_spec (conventional_cell d) _ He) as (Q & _). destruct (Q _ H) as (r & R & B & X & Y).
  exists r, (params_val r). split; auto. split; [apply get_params_val; auto|]. auto.
Qed.
Print Assumptions C35_sc_setting.
Theorem C35_sc_no_internal_error : forall spglib cell atoms cv arg d,
  obtain_data spglib cell atoms arg = Ok d -> crystal_family d = "a" -> lower cv = "sc" ->
  0 <= spglib_angle_or_default d ->
  get_conventional spglib cell atoms cv arg <> Err PotentialBugError.
Proof.
  intros spglib cell atoms cv arg d D F L He H.
  destruct (get_conventional_sc _ _ _ _ _ _ D L (start_not_h _ _ _ F ltac:(discriminate))) as (_ & _ & C).
  apply C in H. rewrite F in H. revert H. apply (sca_spec (conventional_cell d) _ He).
Qed.
Print Assumptions C35_sc_no_internal_error.

(* HPKOT: additionally the scalar product of the first two reciprocal vectors is the smallest *)
Definition smallest_ab (r : mat) : Prop :=
  Rabs (dot (row1 r) (row2 r)) <= Rabs (dot (row1 r) (row3 r)) /\
  Rabs (dot (row1 r) (row2 r)) <= Rabs (dot (row2 r) (row3 r)).
Lemma hpkot_a_spec niggli c :
  (forall c', hpkot_conventional_a niggli c = Ok c' ->
    exists r, get_reciprocal c' = Ok r /\ big r /\ all_acute_or_none (params_val r) /\ smallest_ab r) /\
  ((forall f m e, niggli = Some f -> f m e <> Err PotentialBugError) -> hpkot_conventional_a niggli c <> Err PotentialBugError).
Proof.
  unfold hpkot_conventional_a.
  assert (RE : forall m, get_reciprocal m <> Err PotentialBugError).
  { intros m. unfold get_reciprocal, minv. destruct (Reqb (det m) 0); cbn; discriminate. }
  destruct (get_reciprocal c) as [r0|er] eqn:R; [cbn [bind]|cbn [bind]; split; [discriminate|intros _; rewrite <- R; apply RE]].
  destruct (get_niggli niggli r0 (/ 100000) "spglib" 100000) as [[u v w]|er] eqn:N.
  2:{ cbn [bind]. split; [discriminate|]. intros O H. injection H as ->. unfold get_niggli in N.
      change (lower "spglib") with "spglib" in N. change (String.eqb "spglib" "spglib") with true in N. cbv iota in N.
      destruct niggli as [f|]; [|discriminate]. exact (O f _ _ eq_refl N). }
  cbn [bind row1 row2 row3].
  destruct (get_reciprocal (M3 u v w)) as [c1|er] eqn:R1; [cbn [bind]|cbn [bind]; split; [discriminate|intros _; rewrite <- R1; apply RE]].
  assert (ST2 : exists m x y z, dots_matrix (Rabs (dot v w)) (Rabs (dot u w)) (Rabs (dot u v)) = Ok m /\
     get_reciprocal (tapply m c1) = Ok (M3 x y z) /\ smallest_ab (M3 x y z)).
  { apply reciprocal_involution in R1. destruct c1 as [a1 b1 d1]. unfold smallest_ab; cbn [row1 row2 row3].
    destruct (dots_cases (Rabs (dot v w)) (Rabs (dot u w)) (Rabs (dot u v))) as [(E & L1 & L2) | [(E & L1 & L2) | (E & L1 & L2)]]; rewrite E.
    - exists cyc_231, v, w, u. rewrite tapply_231. split; [reflexivity|]. split; [apply recip_231; auto|].
      rewrite (dot_comm w u), (dot_comm v u). lra.
    - exists cyc_312, w, u, v. rewrite tapply_312. split; [reflexivity|]. split; [apply recip_312; auto|].
      rewrite (dot_comm w u), (dot_comm w v). lra.
    - exists eye, u, v, w. rewrite tapply_eye. split; [reflexivity|]. split; [auto|]. lra. }
  destruct ST2 as (m & x & y & z & M & R2 & SM). rewrite M. cbn [bind]. cbv zeta. rewrite R2. cbn [bind].
  destruct (get_params_cases (M3 x y z)) as [(p & P)|P]; rewrite P; cbn [bind]; [|split; discriminate].
  apply get_params_inv in P. destruct P as (B & ->). rewrite val_M3. cbn [palpha pbeta pgamma].
  destruct (sign_step x y z B) as (m3 & x' & y' & z' & M3' & T & B' & U & D1 & D2 & D3 & RC). rewrite M3'. cbn [bind].
  split; [|discriminate]. intros c' H. injection H as <-. exists (M3 x' y' z'). split; [apply RC; auto|].
  split; auto. split; [exact U|]. unfold smallest_ab in *. cbn [row1 row2 row3] in *. rewrite D1, D2, D3. exact SM.
Qed.
Lemma get_conventional_hpkot_a spglib cell atoms cv arg d :
  obtain_data spglib cell atoms arg = Ok d -> lower cv = "hpkot" -> crystal_family d = "a" ->
  (forall c' new, get_conventional spglib cell atoms cv arg = Ok (c', new) ->
     hpkot_conventional_a (lib_niggli spglib) (conventional_cell d) = Ok c') /\
  (get_conventional spglib cell atoms cv arg = Err PotentialBugError ->
   hpkot_conventional_a (lib_niggli spglib) (conventional_cell d) = Err PotentialBugError).
Proof.
  intros D L F. unfold get_conventional. rewrite D. cbn [bind]. unfold conventional_structure. cbv zeta. rewrite L, F.
  change (String.eqb "hpkot" "spglib" || String.eqb "hpkot" "hpkot") with true.
  change (String.eqb "hpkot" "hpkot" && String.eqb "a" "a") with true. cbv iota.
  destruct (hpkot_conventional_a _ _) as [c|e].
  - cbn [bind]. split.
    + intros c' new H. apply bind_ok in H. destruct H as ([[? ?] ?] & H1 & H). unbind H1. unbind H. congruence.
    + intros H. exfalso. apply bind_err in H. destruct H as [H|([[? ?] ?] & H1 & H)].
      * apply bind_err in H. destruct H as [H|(ps & P & H)]; [|discriminate]. apply reexpress_err in H. discriminate.
      * apply bind_err in H. destruct H as [H|(new & P & H)]; [|discriminate]. apply make_atoms_err in H. destruct H; discriminate.
  - cbn [bind]. split; intros; congruence.
Qed.
Theorem C35_hpkot_setting : forall spglib cell atoms cv arg d c' new,
  obtain_data spglib cell atoms arg = Ok d -> crystal_family d = "a" -> lower cv = "hpkot" ->
  get_conventional spglib cell atoms cv arg = Ok (c', new) ->
  exists r p, get_reciprocal c' = Ok r /\ get_params r = Ok p /\ all_acute_or_none p /\ smallest_ab r.
Proof.
  intros spglib cell atoms cv arg d c' new D F L H.
  apply (get_conventional_hpkot_a _ _ _ _ _ _ D L F) in H.
  destruct (hpkot_a_spec (lib_niggli spglib) (conventional_cell d)) as (Q & _).
  destruct (Q _ H) as (r & R & B & X & Y).
  exists r, (params_val r). split; auto. split; [apply get_params_val; auto|]. auto.
Qed.
Print Assumptions C35_hpkot_setting.
Theorem C35_hpkot_no_internal_error : forall lib cell atoms cv arg d,
  (forall m e, niggli_reduce lib m e <> Err PotentialBugError) ->
  obtain_data (Some lib) cell atoms arg = Ok d -> crystal_family d = "a" -> lower cv = "hpkot" ->
  get_conventional (Some lib) cell atoms cv arg <> Err PotentialBugError.
Proof.
  intros lib cell atoms cv arg d O D F L H.
  apply (get_conventional_hpkot_a _ _ _ _ _ _ D L F) in H. revert H.
  apply hpkot_a_spec. intros f m e E. cbn in E. injection E as <-. apply O.
Qed.
Print Assumptions C35_hpkot_no_internal_error.
(* a triclinic cell with a mixed sign pattern *)
Example C35_case : exists c' new,
  get_conventional None (mk 2 0 0 1 3 0 (-1) 1 4) one_atom "SC" (Data (data_for (mk 2 0 0 1 3 0 (-1) 1 4) "a" "P")) = Ok (c', new).
Proof.
  set (c := mk 2 0 0 1 3 0 (-1) 1 4). assert (D : det c <> 0) by (unfold c; vunfold; lra).
  assert (R : get_reciprocal c = Ok (mscale (2 * PI / 24) (mk 12 (-4) 4 0 8 (-2) 0 0 6))).
  { apply reciprocal_unique; auto. unfold c. generalize PI. intros. vunfold. f_equal; f_equal; field. }
  assert (P4 : 2 < PI) by (pose proof PI2_1; lra).
  assert (BG : forall v, 16 <= dot v v -> FLOAT_EPS < norm (vscale (2 * PI / 24) v)).
  { intros v H. apply norm_big. rewrite dot_scale_l, dot_scale_r.
    apply Rle_trans with (2 * 2 / 24 * (2 * 2 / 24 * 16)); [lra|]. apply Rmult_le_compat; try nra. }
  assert (B : big (mscale (2 * PI / 24) (mk 12 (-4) 4 0 8 (-2) 0 0 6))).
  { unfold mk, mscale. apply big_M3. cbn [row1 row2 row3]. repeat split; apply BG; unfold dot; cbn [vx vy vz]; lra. }
  destruct (sc_conventional_a c (/ 10000)) as [c'|e] eqn:E.
  - exists c'. apply (one_atom_success "a" "P" c c'); auto.
  - exfalso. revert E. unfold sc_conventional_a. rewrite R. cbn [bind].
    destruct (mscale (2 * PI / 24) (mk 12 (-4) 4 0 8 (-2) 0 0 6)) as [u v w].
    rewrite get_params_val by auto. cbn [bind]. rewrite val_M3. cbn [palpha pbeta pgamma].
    destruct (sign_step u v w B) as (m & x & y & z & M & T & B' & U & _ & _ & _ & RC). rewrite M. cbn [bind]. cbv zeta.
    rewrite T, get_params_val by auto. cbn [bind]. rewrite val_M3. cbn [palpha pbeta pgamma].
    pose proof (RC c R) as RR. apply reciprocal_involution in RR. rewrite RR.
    destruct (closest_exists _ _ _ (/ 10000) ltac:(lra) U) as [CE|[CE|CE]]; rewrite CE;
    repeat match goal with |- context [if ?b then _ else _] => destruct b end; discriminate.
Qed.

(* ================= C36: rhombohedral ================= *)
(* three equal lengths (within delta) and three equal angles (within eps, pairwise 2 eps) *)
Definition rhombohedral (delta eps : R) (p : params) : Prop :=
  Rabs (pa p - pb p) <= delta /\ Rabs (pa p - pc p) <= delta /\ Rabs (pb p - pc p) <= delta /\
  Rabs (palpha p - pbeta p) <= 2 * eps /\ Rabs (palpha p - pgamma p) <= 2 * eps /\ Rabs (pbeta p - pgamma p) <= 2 * eps.
(* what the code accepts, seen from its input: the lengths agree, and either the three
   angles agree or alpha or gamma alone is the supplement of the other two *)
Definition rhombohedral_input (delta eps : R) (p : params) : Prop :=
  (Rabs (pa p - pb p) <= delta /\ Rabs (pa p - pc p) <= delta /\ Rabs (pb p - pc p) <= delta) /\
  (Rabs (palpha p - pbeta p) <= eps /\ Rabs (palpha p - pgamma p) <= eps \/
   Rabs (180 - palpha p - pbeta p) <= eps /\ Rabs (pbeta p - pgamma p) <= eps \/
   Rabs (palpha p - pbeta p) <= eps /\ Rabs (pbeta p - (180 - pgamma p)) <= eps).

Lemma hR_spec c de ee :
  (forall c', sc_conventional_hR c ee de = Ok c' -> big c' /\ rhombohedral de ee (params_val c')) /\
  (forall p, get_params c = Ok p ->
    (sc_conventional_hR c ee de = Err PotentialBugError <-> ~ rhombohedral_input de ee p) /\
    (rhombohedral_input de ee p -> exists c', sc_conventional_hR c ee de = Ok c')).
Proof.
  unfold sc_conventional_hR.
  assert (EQ : forall x y t, cwt x CEq y t = true <-> Rabs (x - y) <= t).
  { intros x y t. rewrite cwt_eq. unfold Rabs. destruct (Rcase_abs (x - y)); split; lra. }
  assert (NE : forall x y t, cwt x CNe y t = negb (cwt x CEq y t)).
  { intros x y t. unfold cwt. rewrite negb_involutive. reflexivity. }
  split.
  - intros c' H. apply bind_ok in H. destruct H as (p & P & H). apply get_params_inv in P. destruct P as (B & ->).
    destruct c as [a b c]. pose proof (big_pos _ B) as (P1 & P2 & P3). cbn [row1 row2 row3] in P1, P2, P3.
    rewrite big_M3 in B. rewrite val_M3 in H. cbn [pa pb pc palpha pbeta pgamma] in H. rewrite !NE in H.
    destruct (cwt (norm a) CEq (norm b) de) eqn:L1; [|discriminate].
    destruct (cwt (norm a) CEq (norm c) de) eqn:L2; [|discriminate].
    destruct (cwt (norm b) CEq (norm c) de) eqn:L3; [|discriminate]. cbn [negb orb] in H.
    apply EQ in L1, L2, L3. apply bind_ok in H. destruct H as (m & M & H).
    destruct (cwt (deg b c) CEq (deg a c) ee && cwt (deg b c) CEq (deg a b) ee) eqn:C1.
    { apply andb_true_iff in C1. destruct C1 as (X & Y). apply EQ in X, Y.
      injection M as <-. rewrite tapply_eye in H. injection H as <-. split; [apply big_M3; auto|].
      rewrite val_M3. unfold rhombohedral. cbn [pa pb pc palpha pbeta pgamma].
      do 3 (split; auto). revert X Y. unfold Rabs. repeat match goal with |- context [Rcase_abs ?x] => destruct (Rcase_abs x) end; lra. }
    destruct (cwt (180 - deg b c) CEq (deg a c) ee && cwt (deg a c) CEq (deg a b) ee) eqn:C2.
    { apply andb_true_iff in C2. destruct C2 as (X & Y). apply EQ in X, Y.
      injection M as <-. rewrite tapply_flip_bc in H. injection H as <-. split; [apply big_M3; rewrite ?norm_neg; auto|].
      rewrite val_M3. unfold rhombohedral. cbn [pa pb pc palpha pbeta pgamma].
      rewrite !norm_neg, deg_neg2, !deg_neg_r by auto.
      do 3 (split; auto). revert X Y. unfold Rabs. repeat match goal with |- context [Rcase_abs ?x] => destruct (Rcase_abs x) end; lra. }
    destruct (cwt (deg b c) CEq (180 - deg a c) ee && cwt (deg a c) CEq (deg a b) ee) eqn:C3.
    { exfalso. apply andb_true_iff in C3. destruct C3 as (X & Y). rewrite Y, andb_true_r in C2. apply EQ in X.
      apply cwt_eq_false in C2. revert X C2. unfold Rabs. destruct (Rcase_abs (deg b c - (180 - deg a c))); lra. }
    destruct (cwt (deg b c) CEq (deg a c) ee && cwt (deg a c) CEq (180 - deg a b) ee) eqn:C4; [|discriminate].
    apply andb_true_iff in C4. destruct C4 as (X & Y). apply EQ in X, Y.
    injection M as <-. rewrite tapply_flip_ab in H. injection H as <-. split; [apply big_M3; rewrite ?norm_neg; auto|].
    rewrite val_M3. unfold rhombohedral. cbn [pa pb pc palpha pbeta pgamma].
    rewrite !norm_neg, deg_neg2, !deg_neg_l by auto.
    do 3 (split; auto). revert X Y. unfold Rabs. repeat match goal with |- context [Rcase_abs ?x] => destruct (Rcase_abs x) end; lra.
  - intros p P. rewrite P. cbn [bind]. rewrite !NE. unfold rhombohedral_input. rewrite <- !EQ. clear P.
    destruct (cwt (pa p) CEq (pb p) de); [|cbn; split; [split; [intros _ ((Q & _) & _); discriminate|auto]|intros ((Q & _) & _); discriminate]].
    destruct (cwt (pa p) CEq (pc p) de); [|cbn; split; [split; [intros _ ((_ & Q & _) & _); discriminate|auto]|intros ((_ & Q & _) & _); discriminate]].
    destruct (cwt (pb p) CEq (pc p) de); [|cbn; split; [split; [intros _ ((_ & _ & Q) & _); discriminate|auto]|intros ((_ & _ & Q) & _); discriminate]].
    cbn [negb orb].
    assert (D : cwt (palpha p) CEq (180 - pbeta p) ee = cwt (180 - palpha p) CEq (pbeta p) ee).
    { apply Bool.eq_iff_eq_true. rewrite !EQ. rewrite Rabs_minus_sym. replace (180 - pbeta p - palpha p) with (180 - palpha p - pbeta p) by ring. tauto. }
    rewrite D.
    destruct (cwt (palpha p) CEq (pbeta p) ee), (cwt (palpha p) CEq (pgamma p) ee), (cwt (180 - palpha p) CEq (pbeta p) ee),
      (cwt (pbeta p) CEq (pgamma p) ee), (cwt (pbeta p) CEq (180 - pgamma p) ee); cbn [andb bind]; split;
    try (split; [intros Q; try discriminate Q; intuition discriminate|intros Q; try reflexivity; exfalso; apply Q; intuition auto]);
    try (intros Q; eexists; reflexivity); intros Q; exfalso; intuition discriminate.
Qed.
Lemma get_conventional_hR spglib cell atoms cv arg d :
  obtain_data spglib cell atoms arg = Ok d -> lower cv = "sc" -> crystal_family d = "h" -> centring_type d = "R" ->
  (forall c' new, get_conventional spglib cell atoms cv arg = Ok (c', new) ->
     sc_conventional_hR (primitive_cell d) (spglib_angle_or_default d) (symprec d) = Ok c') /\
  (get_conventional spglib cell atoms cv arg = Err PotentialBugError <->
   sc_conventional_hR (primitive_cell d) (spglib_angle_or_default d) (symprec d) = Err PotentialBugError).
Proof.
  intros D L F C. unfold get_conventional. rewrite D. cbn [bind]. unfold conventional_structure. cbv zeta. rewrite L, F, C.
  change (String.eqb "sc" "spglib" || String.eqb "sc" "hpkot") with false.
  change (String.eqb "sc" "sc") with true. change (String.eqb "h" "h" && String.eqb "R" "R") with true. cbv iota.
  destruct (sc_conventional_hR _ _ _) as [c|e].
  - cbn [bind]. split.
    + intros c' new H. apply bind_ok in H. destruct H as ([[? ?] ?] & H1 & H). unbind H1. unbind H. congruence.
    + split; [|discriminate]. intros H. exfalso. apply bind_err in H. destruct H as [H|([[? ?] ?] & H1 & H)].
      * apply bind_err in H. destruct H as [H|(ps & P & H)]; [|discriminate]. apply reexpress_err in H. discriminate.
      * apply bind_err in H. destruct H as [H|(new & P & H)]; [|discriminate]. apply make_atoms_err in H. destruct H; discriminate.
  - cbn [bind]. split; [intros; congruence|split; intros; congruence].
Qed.
Theorem C36_equal_lengths_and_angles : forall spglib cell atoms cv arg d c' new,
  obtain_data spglib cell atoms arg = Ok d -> crystal_family d = "h" -> centring_type d = "R" -> lower cv = "sc" ->
  get_conventional spglib cell atoms cv arg = Ok (c', new) ->
  exists p, get_params c' = Ok p /\ rhombohedral (symprec d) (spglib_angle_or_default d) p.
Proof.
  intros spglib cell atoms cv arg d c' new D F C L H.
  apply (get_conventional_hR _ _ _ _ _ _ D L F C) in H. apply hR_spec in H. destruct H as (B & H).
  exists (params_val c'). split; [apply get_params_val; auto|auto].
Qed.
Print Assumptions C36_equal_lengths_and_angles.
Theorem C36_internal_error_iff : forall spglib cell atoms cv arg d p,
  obtain_data spglib cell atoms arg = Ok d -> crystal_family d = "h" -> centring_type d = "R" -> lower cv = "sc" ->
  get_params (primitive_cell d) = Ok p ->
  (get_conventional spglib cell atoms cv arg = Err PotentialBugError <->
   ~ rhombohedral_input (symprec d) (spglib_angle_or_default d) p).
Proof.
  intros spglib cell atoms cv arg d p D F C L P.
  rewrite (proj2 (get_conventional_hR _ _ _ _ _ _ D L F C)).
  apply (proj1 (proj2 (hR_spec (primitive_cell d) (symprec d) (spglib_angle_or_default d)) p P)).
Qed.
Print Assumptions C36_internal_error_iff.
(* every rhombohedral lattice whose primitive vectors differ from a standard triple by the
   sign of one pair such that beta is the odd angle is refused: for all cells, not one *)
Theorem C36_odd_beta_fails : forall spglib cell atoms cv arg d p,
  obtain_data spglib cell atoms arg = Ok d -> crystal_family d = "h" -> centring_type d = "R" -> lower cv = "sc" ->
  get_params (primitive_cell d) = Ok p ->
  palpha p = 180 - pbeta p -> pgamma p = 180 - pbeta p -> spglib_angle_or_default d < 2 * Rabs (pbeta p - 90) ->
  get_conventional spglib cell atoms cv arg = Err PotentialBugError.
Proof.
  intros spglib cell atoms cv arg d p D F C L P A G B.
  apply (C36_internal_error_iff _ _ _ _ _ _ _ D F C L P). intros (_ & Q). rewrite A, G in Q.
  revert B Q. unfold Rabs. repeat match goal with |- context [Rcase_abs ?x] => destruct (Rcase_abs x) end; lra.
Qed.
Print Assumptions C36_odd_beta_fails.

(* ... and such a cell exists: the primitive cell of a face-centred cubic lattice with the
   pair (a, c) flipped; it is a rhombohedral lattice with alpha = gamma = 120, beta = 60 *)
Lemma deg_60 u v : norm u = norm v -> 0 < norm u -> dot u v = norm u * norm u / 2 -> deg u v = 60.
Proof.
  intros E P H. unfold deg, angle_rad. rewrite H, <- E.
  replace (norm u * norm u / 2 / (norm u * norm u)) with (cos (PI / 3)).
  - rewrite acos_cos; [unfold TODEGREES; field; apply PI_neq0|]. pose proof PI_pos. lra.
  - rewrite cos_PI3. field. lra.
Qed.
Lemma deg_120 u v : norm u = norm v -> 0 < norm u -> dot u v = - (norm u * norm u / 2) -> deg u v = 120.
Proof.
  intros E P H. assert (D : deg u (vneg v) = 60).
  { apply deg_60; rewrite ?norm_neg, ?dot_neg_r; auto. lra. }
  rewrite deg_neg_r in D by congruence. lra.
Qed.
(* a standard rhombohedral triple: one length, one angle *)
Definition rhombohedral_ok (c : mat) : Prop := exists theta p, get_params c = Ok p /\ pa p = pb p /\ pb p = pc p /\ palpha p = theta /\ pbeta p = theta /\ pgamma p = theta.
Theorem C36_odd_beta_refuted : exists cell,
  det cell <> 0 /\
  (exists p, get_params cell = Ok p /\ pa p = pb p /\ pb p = pc p /\ palpha p = 120 /\ pbeta p = 60 /\ pgamma p = 120) /\
  rhombohedral_ok (tapply flip_ac cell) /\
  get_conventional None cell one_atom "SC" (Data (data_for cell "h" "R")) = Err PotentialBugError.
Proof.
  set (c := mk 0 1 1 (-1) 0 (-1) 1 1 0). exists c.
  set (u := V3 0 1 1). set (v := V3 (-1) 0 (-1)). set (w := V3 1 1 0).
  assert (N : forall x, dot x x = 2 -> norm x = sqrt 2 /\ 0 < norm x /\ norm x * norm x = 2).
  { intros x X. unfold norm. rewrite X. split; auto. split; [apply sqrt_lt_R0; lra|apply sqrt_sqrt; lra]. }
  destruct (N u) as (N1 & N1' & N1'') ; [unfold u; vunfold; lra|].
  destruct (N v) as (N2 & N2' & N2'') ; [unfold v; vunfold; lra|].
  destruct (N w) as (N3 & N3' & N3'') ; [unfold w; vunfold; lra|].
  assert (B : big c).
  { unfold c, mk. apply big_M3. repeat split; apply norm_big; unfold dot; cbn [vx vy vz]; lra. }
  assert (D1 : deg v w = 120) by (apply deg_120; try congruence; rewrite N2''; unfold v, w; vunfold; lra).
  assert (D2 : deg u w = 60) by (apply deg_60; try congruence; rewrite N1''; unfold u, w; vunfold; lra).
  assert (D3 : deg u v = 120) by (apply deg_120; try congruence; rewrite N1''; unfold u, v; vunfold; lra).
  assert (P : get_params c = Ok (params_val c)) by (apply get_params_val; auto).
  split; [unfold c; vunfold; lra|].
  split.
  { exists (params_val c). split; auto. change c with (M3 u v w). rewrite val_M3. cbn [pa pb pc palpha pbeta pgamma].
    repeat split; congruence. }
  split.
  { change c with (M3 u v w). rewrite tapply_flip_ac. unfold rhombohedral_ok. exists 60.
    rewrite get_params_val; [|apply big_M3; rewrite !norm_neg; change c with (M3 u v w) in B; rewrite big_M3 in B; exact B].
    eexists; split; [reflexivity|]. rewrite val_M3. cbn [pa pb pc palpha pbeta pgamma].
    rewrite !norm_neg, deg_neg2, deg_neg_l, deg_neg_r by auto. repeat split; try congruence; lra. }
  eapply C36_odd_beta_fails with (d := data_for c "h" "R") (p := params_val c); try reflexivity.
  - apply one_atom_obtain.
  - exact P.
  - change c with (M3 u v w). rewrite val_M3. cbn [palpha pbeta pgamma]. lra.
  - change c with (M3 u v w). rewrite val_M3. cbn [palpha pbeta pgamma]. lra.
  - change c with (M3 u v w). rewrite val_M3. cbn [palpha pbeta pgamma]. rewrite D2.
    unfold spglib_angle_or_default. cbn [data_for angle_tolerance]. rewrite (proj2 (Reqb_true _ _) eq_refl).
    unfold Rabs. destruct (Rcase_abs (60 - 90)); lra.
Qed.
Print Assumptions C36_odd_beta_refuted.
(* the same lattice in the standard setting is accepted unchanged *)
Example C36_case : exists new,
  get_conventional None (mk 0 1 1 1 0 1 1 1 0) one_atom "SC" (Data (data_for (mk 0 1 1 1 0 1 1 1 0) "h" "R"))
    = Ok (mk 0 1 1 1 0 1 1 1 0, new).
Proof.
  set (c := mk 0 1 1 1 0 1 1 1 0).
  set (u := V3 0 1 1). set (v := V3 1 0 1). set (w := V3 1 1 0).
  assert (N : forall x, dot x x = 2 -> norm x = sqrt 2 /\ 0 < norm x /\ norm x * norm x = 2).
  { intros x X. unfold norm. rewrite X. split; auto. split; [apply sqrt_lt_R0; lra|apply sqrt_sqrt; lra]. }
  destruct (N u) as (N1 & N1' & N1'') ; [unfold u; vunfold; lra|].
  destruct (N v) as (N2 & N2' & N2'') ; [unfold v; vunfold; lra|].
  destruct (N w) as (N3 & N3' & N3'') ; [unfold w; vunfold; lra|].
  assert (B : big c).
  { unfold c, mk. apply big_M3. repeat split; apply norm_big; unfold dot; cbn [vx vy vz]; lra. }
  assert (D1 : deg v w = 60) by (apply deg_60; try congruence; rewrite N2''; unfold v, w; vunfold; lra).
  assert (D2 : deg u w = 60) by (apply deg_60; try congruence; rewrite N1''; unfold u, w; vunfold; lra).
  assert (D3 : deg u v = 60) by (apply deg_60; try congruence; rewrite N1''; unfold u, v; vunfold; lra).
  assert (E : sc_conventional_hR c (spglib_angle_or_default (data_for c "h" "R")) (/ 100000) = Ok c).
  { unfold sc_conventional_hR, spglib_angle_or_default. cbn [data_for angle_tolerance].
    rewrite (proj2 (Reqb_true _ _) eq_refl), get_params_val by auto. cbn [bind]. change c with (M3 u v w). rewrite val_M3.
    cbn [pa pb pc palpha pbeta pgamma]. rewrite N1, N2, N3, D1, D2, D3.
    rewrite (proj2 (cwt_ne_false _ _ _)) by lra. rewrite (proj2 (cwt_eq _ _ _)) by lra. cbn [orb andb bind].
    rewrite tapply_eye. reflexivity. }
  unfold get_conventional. rewrite one_atom_obtain. cbn [bind].
  change (conventional_structure (lib_niggli None) (data_for c "h" "R") "SC") with
    (do c' <- sc_conventional_hR c (spglib_angle_or_default (data_for c "h" "R")) (/ 100000);
     do ps <- reexpress [vzero] c c'; Ok (c', ps, [1%Z])).
  rewrite E. cbn [bind]. unfold reexpress.
  rewrite (proj2 (minv_ok c (minv_total c))) by (split; [unfold c; vunfold; lra|reflexivity]). cbn [bind].
  change (original_types (data_for c "h" "R")) with [1%Z]. rewrite one_atom_made. cbn [bind]. eauto.
Qed.
