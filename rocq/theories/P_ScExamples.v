(* P_ScExamples.v : property C49 (SC_* constructors and sc_get_example). *)
From Verif Require Import Base M_Strings M_Dict M_Numerical M_Geometry M_Cell T_Tables M_ScExamples F_Geometry F_Strings.
Open Scope string_scope.
Open Scope list_scope.
Open Scope R_scope.

(* The documentation of the example names: every variation, and the ten lattice types that
   have several variations, in lower case. *)
Definition documented_names : list string :=
  ["cub"; "fcc"; "bcc"; "tet"; "bct"; "bct1"; "bct2"; "orc"; "orcf"; "orcf1"; "orcf2"; "orcf3"; "orci"; "orcc"; "hex";
   "rhl"; "rhl1"; "rhl2"; "mcl"; "mclc"; "mclc1"; "mclc2"; "mclc3"; "mclc4"; "mclc5"; "tri"; "tri1a"; "tri1b"; "tri2a"; "tri2b"].

(* ---- tools ---- *)
Lemma norm_of v x : 0 <= x -> dot v v = x * x -> norm v = x.
Proof. intros H E. unfold norm. rewrite E. apply sqrt_square; auto. Qed.
Lemma cos_90 : cos (90 * TORADIANS) = 0.
Proof. replace (90 * TORADIANS) with (PI / 2) by (unfold TORADIANS; field). apply cos_PI2. Qed.
Lemma cos_120 : cos (120 * TORADIANS) = - / 2.
Proof.
  replace (120 * TORADIANS) with (PI - PI / 3) by (unfold TORADIANS; field).
  rewrite Rtrigo_facts.cos_pi_minus, cos_PI3. lra.
Qed.
Lemma sin_pos_deg x : 0 < x < 180 -> 0 < sin (x * TORADIANS).
Proof. intros H. pose proof (rad_range_lt x H). apply sin_gt_0; lra. Qed.
Lemma cos_pos_deg x : 0 <= x < 90 -> 0 < cos (x * TORADIANS).
Proof.
  intros H. assert (90 * TORADIANS = PI / 2) by (unfold TORADIANS; field). pose proof TORADIANS_pos.
  apply cos_gt_0; nra.
Qed.
Lemma sin2_cos2' x : sin x * sin x + cos x * cos x = 1.
Proof. pose proof (sin2_cos2 x) as H. unfold Rsqr in H. exact H. Qed.
Lemma sqrt3_sqr : sqrt 3 * sqrt 3 = 3. Proof. apply sqrt_sqrt; lra. Qed.

(* ---- the constructors ---- *)
(* a rectangular box, and the monoclinic cell, with their documented parameters *)
Definition box (a b c : R) : mat := mk a 0 0 0 b 0 0 0 c.
Lemma box_params a b c : 0 < a -> 0 < b -> 0 < c -> has_params (box a b c) a b c 90 90 90 /\ det (box a b c) = a * b * c.
Proof.
  intros A B C. split; [|unfold box; vring]. unfold has_params. rewrite cos_90. unfold box.
  repeat split; try lra; try (apply norm_of; [lra|vring]); vring.
Qed.

(* the primitive cell of a conventional one under the table of the convention *)
Definition primitive_of (lattice : string) (conventional cell : mat) : Prop :=
  exists m, lookup lattice SC_CONVENTIONAL_TO_PRIMITIVE = Some m /\ cell = mmul (tr m) conventional.

Theorem C49_orthogonal_lattices : forall a b c, 0 < a -> 0 < b -> 0 < c ->
  let shaped := fun lattice cell x y z n =>
    exists conv, has_params conv x y z 90 90 90 /\ primitive_of lattice conv cell /\ det cell * n = x * y * z in
  shaped "cP" (SC_CUB a) a a a 1 /\ shaped "cF" (SC_FCC a) a a a 4 /\ shaped "cI" (SC_BCC a) a a a 2 /\
  shaped "tP" (SC_TET a c) a a c 1 /\ shaped "tI" (SC_BCT a c) a a c 2 /\
  shaped "oP" (SC_ORC a b c) a b c 1 /\ shaped "oF" (SC_ORCF a b c) a b c 4 /\ shaped "oI" (SC_ORCI a b c) a b c 2 /\
  shaped "oC" (SC_ORCC a b c) a b c 2.
Proof.
  intros a b c A B C shaped.
  assert (K : forall lattice cell x y z n m, 0 < x -> 0 < y -> 0 < z ->
     lookup lattice SC_CONVENTIONAL_TO_PRIMITIVE = Some m -> cell = mmul (tr m) (box x y z) -> det cell * n = x * y * z ->
     shaped lattice cell x y z n).
  { intros lattice cell x y z n m X Y Z L E D. exists (box x y z). split; [apply box_params; auto|]. split; auto. exists m. auto. }
  repeat match goal with |- _ /\ _ => split end; (eapply K; [assumption|assumption|assumption|reflexivity| |]).
  all: unfold SC_CUB, SC_FCC, SC_BCC, SC_TET, SC_BCT, SC_ORC, SC_ORCF, SC_ORCI, SC_ORCC, box; vunfold; try (vcomp; field); field.
Qed.
Print Assumptions C49_orthogonal_lattices.

Theorem C49_hexagonal : forall a c, 0 < a -> 0 < c ->
  has_params (SC_HEX a c) a a c 90 90 120 /\ 0 < det (SC_HEX a c).
Proof.
  intros a c A C. pose proof sqrt3_sqr as S. assert (0 < sqrt 3) by (apply sqrt_lt_R0; lra). split.
  - unfold has_params. rewrite cos_90, cos_120. unfold SC_HEX, mk; cbn [row1 row2 row3].
    repeat split; try lra; try (apply norm_of; [lra|]); unfold dot; cbn [vx vy vz]; nra.
  - replace (det (SC_HEX a c)) with (a * a * c * sqrt 3 / 2); [|unfold SC_HEX; vunfold; field].
    assert (0 < a * a * c) by (repeat apply Rmult_lt_0_compat; auto). nra.
Qed.
Print Assumptions C49_hexagonal.

(* rhombohedral: every angle below 120 degrees; a larger one is impossible and raises ValueError *)
Lemma half_angle x : cos x = 2 * (cos (x / 2) * cos (x / 2)) - 1.
Proof. replace x with (2 * (x / 2)) at 1 by field. rewrite cos_2a_cos. ring. Qed.
Lemma cos_60_lt t : 0 <= t <= 180 -> (1 / 2 < cos (t * TORADIANS) <-> t < 60) /\ (cos (t * TORADIANS) < 1 / 2 <-> 60 < t).
Proof.
  intros H. assert (E : 60 * TORADIANS = PI / 3) by (unfold TORADIANS; field).
  pose proof cos_PI3 as C. rewrite <- E in C. pose proof TORADIANS_pos as T.
  pose proof (rad_range t H). pose proof (rad_range 60 ltac:(lra)).
  assert (K1 : t < 60 -> 1 / 2 < cos (t * TORADIANS)) by (intros; rewrite <- C; apply cos_decreasing_1; nra).
  assert (K2 : 60 < t -> cos (t * TORADIANS) < 1 / 2) by (intros; rewrite <- C; apply cos_decreasing_1; nra).
  assert (K3 : t = 60 -> cos (t * TORADIANS) = 1 / 2) by (intros ->; lra).
  destruct (Rtotal_order t 60) as [L|[L|L]]; [specialize (K1 L)|specialize (K3 L)|specialize (K2 L)]; split; split; intros; lra.
Qed.
Theorem C49_rhombohedral : forall a alpha, 0 < a -> 0 < alpha ->
  (alpha < 120 -> exists cell, SC_RHL a alpha = Ok cell /\ has_params cell a a a alpha alpha alpha /\ 0 < det cell) /\
  (120 < alpha < 180 -> SC_RHL a alpha = Err ValueError).
Proof.
  intros a alpha A P.
  assert (E : alpha * TORADIANS / 2 = alpha / 2 * TORADIANS) by field.
  pose proof (half_angle (alpha * TORADIANS)) as Q. rewrite E in Q.
  unfold SC_RHL. cbv zeta. rewrite E.
  split.
  - intros H. pose proof (cos_pos_deg (alpha / 2) ltac:(lra)) as CP. pose proof (sin_pos_deg (alpha / 2) ltac:(lra)) as SP.
    destruct (cos_60_lt (alpha / 2) ltac:(lra)) as ((_ & L) & _). specialize (L ltac:(lra)).
    pose proof (sin2_cos2' (alpha / 2 * TORADIANS)) as U.
    set (C := cos (alpha / 2 * TORADIANS)) in *. set (S := sin (alpha / 2 * TORADIANS)) in *. set (D := cos (alpha * TORADIANS)) in *.
    destruct (Reqb_spec C 0); [lra|].
    assert (W : 1 - D * D / (C * C) = (1 - C) * (1 + 2 * C) * (2 * C - 1) * (C + 1) / (C * C)) by (rewrite Q; field; lra).
    assert (CL : C < 1) by nra.
    assert (N : 0 < 1 - D * D / (C * C)).
    { rewrite W. apply Rdiv_lt_0_compat; [|nra]. repeat apply Rmult_lt_0_compat; lra. }
    rewrite py_sqrt_ok by lra. cbn [bind]. eexists. split; [reflexivity|].
    pose proof (sqrt_sqrt (1 - D * D / (C * C)) ltac:(lra)) as V. pose proof (sqrt_lt_R0 _ N) as V0.
    set (r := sqrt (1 - D * D / (C * C))) in *.
    assert (DC : D / C * C = D) by (field; lra).
    assert (RR : r * r = 1 - (D / C) * (D / C)) by (rewrite V; field; lra).
    replace (a * D / C) with (a * (D / C)) by (field; lra).
    set (k := D / C) in *. clearbody r k. split.
    + unfold has_params, mk; cbn [row1 row2 row3]. fold D.
      repeat split; try lra; try (apply norm_of; [lra|]); unfold dot; cbn [vx vy vz].
      * transitivity (a * a * (S * S + C * C)); [ring|rewrite U; ring].
      * transitivity (a * a * (S * S + C * C)); [ring|rewrite U; ring].
      * transitivity (a * a * (k * k + r * r)); [ring|rewrite RR; ring].
      * transitivity (a * a * (k * C)); [ring|rewrite DC; ring].
      * transitivity (a * a * (k * C)); [ring|rewrite DC; ring].
      * transitivity (a * a * (C * C - S * S)); [ring|]. rewrite Q. f_equal. lra.
    + replace (det _) with (2 * (a * a * a) * (C * S * r)); [|vunfold; ring].
      assert (0 < a * a * a) by (repeat apply Rmult_lt_0_compat; auto).
      assert (0 < C * S * r) by (repeat apply Rmult_lt_0_compat; auto). nra.
  - intros H. pose proof (cos_pos_deg (alpha / 2) ltac:(lra)) as CP.
    destruct (cos_60_lt (alpha / 2) ltac:(lra)) as (_ & _ & L). specialize (L ltac:(lra)).
    set (C := cos (alpha / 2 * TORADIANS)) in *. set (D := cos (alpha * TORADIANS)) in *.
    destruct (Reqb_spec C 0); [lra|].
    assert (W : 1 - D * D / (C * C) = - ((1 - C) * (1 + 2 * C) * (1 - 2 * C) * (C + 1) / (C * C))) by (rewrite Q; field; lra).
    assert (N : 0 < (1 - C) * (1 + 2 * C) * (1 - 2 * C) * (C + 1) / (C * C)).
    { apply Rdiv_lt_0_compat; [|nra]. repeat apply Rmult_lt_0_compat; lra. }
    unfold py_sqrt. rewrite (proj2 (Rltb_true _ 0)) by lra. reflexivity.
Qed.
Print Assumptions C49_rhombohedral.

(* monoclinic *)
Lemma mcl_params a b c al : 0 < a -> 0 < b -> 0 < c -> 0 < al < 180 ->
  has_params (SC_MCL a b c al) a b c al 90 90 /\ det (SC_MCL a b c al) = a * b * c * sin (al * TORADIANS).
Proof.
  intros A B C L. pose proof (sin2_cos2' (al * TORADIANS)) as U. split; [|unfold SC_MCL; vring].
  unfold has_params. rewrite cos_90. unfold SC_MCL, mk; cbn [row1 row2 row3].
  repeat split; try lra; try (apply norm_of; [lra|]); unfold dot; cbn [vx vy vz]; try ring.
  transitivity (c * c * (sin (al * TORADIANS) * sin (al * TORADIANS) + cos (al * TORADIANS) * cos (al * TORADIANS))); [ring|rewrite U; ring].
Qed.
Theorem C49_monoclinic : forall a b c alpha, 0 < a -> 0 < b -> 0 < c -> 0 < alpha < 180 ->
  (has_params (SC_MCL a b c alpha) a b c alpha 90 90 /\ 0 < det (SC_MCL a b c alpha)) /\
  (exists conv, has_params conv a b c alpha 90 90 /\ primitive_of "mC" conv (SC_MCLC a b c alpha) /\
     det conv = 2 * det (SC_MCLC a b c alpha) /\ 0 < det (SC_MCLC a b c alpha)).
Proof.
  intros a b c al A B C L. destruct (mcl_params a b c al A B C L) as (P & D). pose proof (sin_pos_deg al L) as S.
  assert (N : 0 < a * b * c * sin (al * TORADIANS)) by (repeat apply Rmult_lt_0_compat; auto).
  split; [split; [auto|lra]|].
  assert (D2 : det (SC_MCL a b c al) = 2 * det (SC_MCLC a b c al)) by (unfold SC_MCL, SC_MCLC; vunfold; field).
  exists (SC_MCL a b c al). repeat split; try apply P; try lra.
  eexists. split; [reflexivity|]. unfold SC_MCL, SC_MCLC. vunfold. vcomp; field.
Qed.
Print Assumptions C49_monoclinic.

(* triclinic *)
Theorem C49_triclinic : forall a b c al be ga cell,
  (SC_TRI a b c al be ga false = Ok cell -> 0 < det cell /\ has_params cell a b c al be ga) /\
  (SC_TRI a b c al be ga true = Ok cell -> 0 < det cell /\
     exists r, get_reciprocal cell = Ok r /\ has_params r a b c al be ga) /\
  (forall reciprocal, parallelepiped_check a b c al be ga false default_length_tolerance default_angle_tolerance = Ok false ->
     SC_TRI a b c al be ga reciprocal = Err ValueError) /\
  (forall reciprocal, parallelepiped_check a b c al be ga false default_length_tolerance default_angle_tolerance = Ok true ->
     exists cell', SC_TRI a b c al be ga reciprocal = Ok cell').
Proof.
  intros a b c al be ga cell.
  assert (K : forall m, from_params a b c al be ga = Ok m -> 0 < det m /\ has_params m a b c al be ga).
  { intros m H. destruct (ppc a b c al be ga default_length_tolerance default_angle_tolerance) eqn:P;
      [|rewrite from_params_err in H by auto; discriminate].
    rewrite (from_params_ok _ _ _ _ _ _ P) in H. injection H as <-. destruct (ppc_cell _ _ _ _ _ _ P); auto. }
  unfold SC_TRI, parallelepiped_check. rewrite andb_false_r. split; [|split; [|split]].
  - intros H. destruct (from_params a b c al be ga) eqn:F; [|discriminate]. cbn [bind] in H. injection H as ->. apply K; auto.
  - intros H. destruct (from_params a b c al be ga) as [m|] eqn:F; [|discriminate]. cbn [bind] in H. destruct (K _ eq_refl) as (D & P).
    pose proof (reciprocal_det _ _ H) as E. pose proof PI_pos.
    assert (P2 : 0 < 2 * PI) by lra. assert (0 < 2 * PI * (2 * PI) * (2 * PI)) by (generalize (2 * PI) P2; intros x X; repeat apply Rmult_lt_0_compat; lra).
    split; [nra|]. exists m. split; [apply reciprocal_involution; auto|auto].
  - intros reciprocal H. rewrite from_params_err by congruence. reflexivity.
  - intros reciprocal H. assert (P : ppc a b c al be ga default_length_tolerance default_angle_tolerance = true) by congruence.
    rewrite (from_params_ok _ _ _ _ _ _ P). cbn [bind]. destruct reciprocal; eauto.
    destruct (ppc_cell _ _ _ _ _ _ P) as (_ & D). rewrite get_reciprocal_ok; eauto. intros Z. rewrite Z in D. lra.
Qed.
Print Assumptions C49_triclinic.

(* ---- sc_get_example ---- *)
Lemma names_same s : mem s correct_inputs = true <-> In s documented_names.
Proof.
  rewrite mem_true. split; intros H.
  - apply (proj1 (mem_true _ _)). revert s H. apply Forall_forall. cbv [correct_inputs]. vm_compute. repeat constructor.
  - apply (proj1 (mem_true _ _)). revert s H. apply Forall_forall. vm_compute. repeat constructor.
Qed.

(* The criteria of the Setyawan-Curtarolo paper for the variations of all but the triclinic
   lattice, on the parameters of a conventional cell. *)
Definition k_gamma (cell : mat) (k : R) : Prop :=
  exists r q, get_reciprocal cell = Ok r /\ get_params r = Ok q /\ pgamma q = k.
Definition mclc_number (a b c alpha : R) : R :=
  b * cos (alpha * TORADIANS) / c + b * b * (sin (alpha * TORADIANS) * sin (alpha * TORADIANS)) / (a * a).
Definition is_variation (v : string) (cell : mat) : Prop :=
  let orthogonal lattice (P : R -> R -> R -> Prop) :=
    exists conv a b c, 0 < a /\ 0 < b /\ 0 < c /\ has_params conv a b c 90 90 90 /\ primitive_of lattice conv cell /\ P a b c in
  let monoclinic (P : R -> R -> R -> R -> Prop) :=
    exists conv a b c al k, 0 < a /\ 0 < b /\ 0 < c /\ 0 < al < 90 /\ has_params conv a b c al 90 90 /\
      primitive_of "mC" conv cell /\ k_gamma cell k /\ P k (mclc_number a b c al) b c in
  let inv x := / (x * x) in
  (v = "CUB" /\ orthogonal "cP" (fun a b c => a = b /\ b = c)) \/
  (v = "FCC" /\ orthogonal "cF" (fun a b c => a = b /\ b = c)) \/
  (v = "BCC" /\ orthogonal "cI" (fun a b c => a = b /\ b = c)) \/
  (v = "TET" /\ orthogonal "tP" (fun a b c => a = b /\ b <> c)) \/
  (v = "BCT1" /\ orthogonal "tI" (fun a b c => a = b /\ c < a)) \/
  (v = "BCT2" /\ orthogonal "tI" (fun a b c => a = b /\ a < c)) \/
  (v = "ORC" /\ orthogonal "oP" (fun a b c => a < b < c)) \/
  (v = "ORCF1" /\ orthogonal "oF" (fun a b c => a < b < c /\ inv b + inv c < inv a)) \/
  (v = "ORCF2" /\ orthogonal "oF" (fun a b c => a < b < c /\ inv a < inv b + inv c)) \/
  (v = "ORCF3" /\ orthogonal "oF" (fun a b c => a < b < c /\ inv a = inv b + inv c)) \/
  (v = "ORCI" /\ orthogonal "oI" (fun a b c => a < b < c)) \/
  (v = "ORCC" /\ orthogonal "oC" (fun a b c => a < b)) \/
  (v = "HEX" /\ exists a c, 0 < a /\ 0 < c /\ has_params cell a a c 90 90 120) \/
  (v = "RHL1" /\ exists a al, 0 < a /\ 0 < al < 90 /\ has_params cell a a a al al al) \/
  (v = "RHL2" /\ exists a al, 0 < a /\ 90 < al < 120 /\ has_params cell a a a al al al) \/
  (v = "MCL" /\ exists a b c al, 0 < a /\ 0 < b /\ a <= c /\ b <= c /\ 0 < al < 90 /\ has_params cell a b c al 90 90) \/
  (v = "MCLC1" /\ monoclinic (fun k _ _ _ => 90 < k)) \/
  (v = "MCLC2" /\ monoclinic (fun k _ _ _ => k = 90)) \/
  (v = "MCLC3" /\ monoclinic (fun k n _ _ => k < 90 /\ n < 1)) \/
  (v = "MCLC4" /\ monoclinic (fun k n _ _ => k < 90 /\ n = 1)) \/
  (v = "MCLC5" /\ monoclinic (fun k n _ _ => k < 90 /\ 1 < n)).

(* the angle between the first two reciprocal vectors of the base-centred monoclinic cell *)
Lemma cos_lt_90 k : 0 <= k <= 180 -> (k < 90 <-> 0 < cos (k * TORADIANS)) /\ (90 < k <-> cos (k * TORADIANS) < 0) /\ (k = 90 <-> cos (k * TORADIANS) = 0).
Proof.
  intros H. pose proof cos_90 as C. pose proof TORADIANS_pos as T. pose proof (rad_range k H). pose proof (rad_range 90 ltac:(lra)).
  assert (K1 : k < 90 -> 0 < cos (k * TORADIANS)) by (intros; rewrite <- C; apply cos_decreasing_1; nra).
  assert (K2 : 90 < k -> cos (k * TORADIANS) < 0) by (intros; rewrite <- C; apply cos_decreasing_1; nra).
  assert (K3 : k = 90 -> cos (k * TORADIANS) = 0) by (intros ->; lra).
  destruct (Rtotal_order k 90) as [L|[L|L]]; [specialize (K1 L)|specialize (K3 L)|specialize (K2 L)]; split; split; try split; intros; lra.
Qed.
Definition mclc_reciprocal (a b c al : R) : mat :=
  let s := sin (al * TORADIANS) in let t := cos (al * TORADIANS) in
  mscale (2 * PI) (mk (/ a) (/ b) (- t / (b * s)) (- / a) (/ b) (- t / (b * s)) 0 0 (/ (c * s))).
Lemma mclc_reciprocal_ok a b c al : 0 < a -> 0 < b -> 0 < c -> 0 < al < 180 ->
  get_reciprocal (SC_MCLC a b c al) = Ok (mclc_reciprocal a b c al).
Proof.
  intros A B C L. pose proof (sin_pos_deg al L) as S. destruct (C49_monoclinic a b c al A B C L) as (_ & conv & _ & _ & _ & D).
  apply reciprocal_unique; [lra|]. unfold mclc_reciprocal, SC_MCLC. cbv zeta. set (s := sin _) in *. set (t := cos _). clearbody s t.
  vunfold. vcomp; field; lra.
Qed.
(* 100 : large enough for every example, small enough for get_params to accept the reciprocal vectors *)
Theorem C49_k_gamma : forall a b c al, 0 < a <= 100 -> 0 < b -> 0 < c <= 100 -> 0 < al < 180 ->
  exists k, k_gamma (SC_MCLC a b c al) k /\
    (90 < k <-> a < b * sin (al * TORADIANS)) /\
    (k = 90 <-> a = b * sin (al * TORADIANS)) /\
    (k < 90 <-> b * sin (al * TORADIANS) < a).
Proof.
  intros a b c al A B C L. pose proof (sin_pos_deg al L) as S. pose proof PI_pos as P. pose proof (sin2_cos2' (al * TORADIANS)) as U.
  assert (P2 : 2 <= PI) by (pose proof PI2_1; lra).
  pose proof (mclc_reciprocal_ok a b c al ltac:(lra) B ltac:(lra) L) as E.
  set (r := mclc_reciprocal a b c al) in *.
  set (s := sin (al * TORADIANS)) in *. set (t := cos (al * TORADIANS)) in *.
  assert (Ia : / 100 <= / a) by (apply Rinv_le_contravar; lra).
  assert (S1 : s <= 1) by nra.
  assert (Ic : / 100 <= / (c * s)) by (apply Rinv_le_contravar; nra).
  assert (N : forall v x, x * x <= dot v v -> 0 <= x -> x <= norm v).
  { intros v x X X0. unfold norm. rewrite <- (sqrt_square x X0). apply sqrt_le_1_alt. auto. }
  assert (F : FLOAT_EPS < / 50) by (unfold FLOAT_EPS; lra).
  assert (B1 : row1 r = V3 (2 * PI * / a) (2 * PI * / b) (2 * PI * (- t / (b * s)))) by reflexivity.
  assert (B2 : row2 r = V3 (2 * PI * - / a) (2 * PI * / b) (2 * PI * (- t / (b * s)))) by reflexivity.
  assert (B3 : row3 r = V3 (2 * PI * 0) (2 * PI * 0) (2 * PI * / (c * s))) by reflexivity.
  assert (Q1 : / 50 <= 2 * PI * / a) by nra.
  assert (Q3 : / 50 <= 2 * PI * / (c * s)) by nra.
  assert (N1 : / 50 <= norm (row1 r)).
  { apply N; [|lra]. rewrite B1. unfold dot; cbn [vx vy vz].
    pose proof (Rle_0_sqr (2 * PI * / b)). pose proof (Rle_0_sqr (2 * PI * (- t / (b * s)))). unfold Rsqr in *.
    assert (/ 50 * / 50 <= 2 * PI * / a * (2 * PI * / a)) by (apply Rmult_le_compat; lra). lra. }
  assert (N2 : / 50 <= norm (row2 r)).
  { apply N; [|lra]. rewrite B2. unfold dot; cbn [vx vy vz].
    pose proof (Rle_0_sqr (2 * PI * / b)). pose proof (Rle_0_sqr (2 * PI * (- t / (b * s)))). unfold Rsqr in *.
    assert (/ 50 * / 50 <= 2 * PI * / a * (2 * PI * / a)) by (apply Rmult_le_compat; lra). lra. }
  assert (N3 : / 50 <= norm (row3 r)).
  { apply N; [|lra]. rewrite B3. unfold dot; cbn [vx vy vz].
    assert (/ 50 * / 50 <= 2 * PI * / (c * s) * (2 * PI * / (c * s))) by (apply Rmult_le_compat; lra). lra. }
  destruct (get_params_ok r ltac:(lra) ltac:(lra) ltac:(lra)) as (q & Gq & Hq).
  exists (pgamma q). split; [exists r, q; auto|].
  destruct Hq as (QA & QB & _ & _ & _ & RG & _ & _ & D).
  assert (DD : dot (row1 r) (row2 r) = 4 * PI * PI * ((a - b * s) * (a + b * s) / (a * a * (b * s) * (b * s)))).
  { rewrite B1, B2. unfold dot; cbn [vx vy vz].
    transitivity (4 * PI * PI * ((s * s + t * t) / (b * b * s * s) - / (a * a))); [field; lra|]. rewrite U. field. lra. }
  assert (BS : 0 < b * s) by (apply Rmult_lt_0_compat; auto).
  set (m := 4 * PI * PI * ((a + b * s) / (a * a * (b * s) * (b * s)))).
  assert (M : 0 < m).
  { unfold m. apply Rmult_lt_0_compat; [nra|]. apply Rdiv_lt_0_compat; [lra|]. repeat apply Rmult_lt_0_compat; lra. }
  assert (DM : dot (row1 r) (row2 r) = m * (a - b * s)) by (rewrite DD; unfold m; field; lra).
  rewrite DM in D. assert (EX : exists x, x = a - b * s) by eauto. destruct EX as (x & EX). rewrite <- EX in D. set (w := cos (pgamma q * TORADIANS)) in *.
  assert (NN : 0 < pa q * pb q) by (rewrite <- QA, <- QB; apply Rmult_lt_0_compat; lra).
  set (y := pa q * pb q) in *. 
  destruct (cos_lt_90 _ RG) as (K1 & K2 & K3). fold w in K1, K2, K3. rewrite K1, K2, K3. clearbody y w.
  assert (X1 : 0 < w <-> 0 < x) by (split; intros; nra).
  assert (X2 : w < 0 <-> x < 0) by (split; intros; nra).
  assert (X3 : w = 0 <-> x = 0) by (split; intros; nra).
  rewrite X1, X2, X3, EX. repeat split; lra.
Qed.
Print Assumptions C49_k_gamma.

(* the parameters of every example, by name *)
Lemma example_unfold s : sc_get_example (Some s) =
  if negb (mem (lower s) correct_inputs) then Err ValueError else sc_get_example (Some (lower s)).
Proof.
  assert (L : forall s, lower (lower s) = lower s).
  { intros x. unfold lower. induction x as [|ch x IH]; cbn [smap]; auto. rewrite IH. f_equal.
    destruct ch as [[] [] [] [] [] [] [] []]; reflexivity. }
  unfold sc_get_example. rewrite L. destruct (mem (lower s) correct_inputs); reflexivity.
Qed.
Ltac named H := cbn [In documented_names] in H; repeat (destruct H as [<-|H]; [|]); [..|contradiction].
Lemma tri_ok a b c al be ga : parallelepiped_check a b c al be ga false default_length_tolerance default_angle_tolerance = Ok true ->
  exists cell, SC_TRI a b c al be ga false = Ok cell /\ 0 < det cell.
Proof.
  intros H. destruct (C49_triclinic a b c al be ga (box 1 1 1)) as (_ & _ & _ & K). destruct (K false H) as (cell & E).
  exists cell. split; auto. destruct (proj1 (C49_triclinic a b c al be ga cell) E). auto.
Qed.
Lemma rhl_ok a al : 0 < a -> 0 < al < 120 -> exists cell, SC_RHL a al = Ok cell /\ 0 < det cell.
Proof. intros A L. destruct (C49_rhombohedral a al A) as (K & _); [lra|]. destruct K as (cell & E & _ & D); [lra|]. eauto. Qed.
Lemma mclc_c k x al : 0 < k -> 1 < x -> 0 < al < 90 -> 0 < PI * (x * x) / (x * x - 1) * cos (al * TORADIANS) * k.
Proof.
  intros K X L. pose proof PI_pos. pose proof (cos_pos_deg al ltac:(lra)).
  apply Rmult_lt_0_compat; auto. apply Rmult_lt_0_compat; auto. assert (1 < x * x) by nra. apply Rdiv_lt_0_compat; [apply Rmult_lt_0_compat; lra|lra].
Qed.
Lemma mclc_a x al : 0 < x -> 0 < al < 180 -> 0 < x * PI * sin (al * TORADIANS).
Proof. intros X L. pose proof PI_pos. pose proof (sin_pos_deg al L). apply Rmult_lt_0_compat; nra. Qed.
Lemma mclc_det a b c al : 0 < a -> 0 < b -> 0 < c -> 0 < al < 180 -> 0 < det (SC_MCLC a b c al).
Proof. intros A B C L. destruct (C49_monoclinic a b c al A B C L) as (_ & conv & _ & _ & _ & D). auto. Qed.

Lemma ortho_det lattice cell x y z n : 0 < x -> 0 < y -> 0 < z -> 0 < n ->
  (exists conv, has_params conv x y z 90 90 90 /\ primitive_of lattice conv cell /\ det cell * n = x * y * z) -> 0 < det cell.
Proof.
  intros X Y Z N (conv & _ & _ & D). assert (0 < x * y * z) by (repeat apply Rmult_lt_0_compat; auto).
  destruct (Rle_or_lt (det cell) 0); [nra|auto].
Qed.
Theorem C49_names : forall s,
  (In (lower s) documented_names -> exists cell, sc_get_example (Some s) = Ok cell /\ 0 < det cell) /\
  (~ In (lower s) documented_names -> sc_get_example (Some s) = Err ValueError).
Proof.
  intros s. rewrite example_unfold. split; intros H.
  - rewrite (proj2 (names_same _) H). cbn [negb]. pose proof PI_pos as P.
    assert (Q : forall x, 0 < x -> 0 < x * PI) by (intros; nra).
    assert (O : forall a b c, 0 < a -> 0 < b -> 0 < c ->
        0 < det (SC_CUB a) /\ 0 < det (SC_FCC a) /\ 0 < det (SC_BCC a) /\ 0 < det (SC_TET a c) /\ 0 < det (SC_BCT a c) /\
        0 < det (SC_ORC a b c) /\ 0 < det (SC_ORCF a b c) /\ 0 < det (SC_ORCI a b c) /\ 0 < det (SC_ORCC a b c)).
    { intros a b c A B C. destruct (C49_orthogonal_lattices a b c A B C) as (? & ? & ? & ? & ? & ? & ? & ? & ?).
      repeat split; (eapply ortho_det; [ | | | | eassumption]; lra). }
    assert (T0 : 0 < sin (75 * TORADIANS)) by (apply sin_pos_deg; lra).
    revert H. generalize (lower s). clear s. intros s H.
    named H; unfold sc_get_example; cbn -[SC_CUB SC_FCC SC_BCC SC_TET SC_BCT SC_ORC SC_ORCF SC_ORCI SC_ORCC SC_HEX SC_RHL SC_MCL SC_MCLC SC_TRI PI det sin cos TORADIANS].
    all: try (apply rhl_ok; lra).
    all: try (apply tri_ok; unfold parallelepiped_check; rewrite andb_false_r; f_equal; apply ppc_spec; unfold default_length_tolerance, default_angle_tolerance; lra).
    all: eexists; (split; [reflexivity|]).
    all: try (apply mclc_det; solve [lra | rewrite Rmult_comm; auto | apply Rmult_lt_0_compat; auto; lra |
           apply mclc_a; lra | apply mclc_c; lra |
           match goal with |- 0 < ?e => replace e with (e * 1) by ring end; apply mclc_c; lra]).
    all: try (apply C49_hexagonal; lra).
    all: try (apply C49_monoclinic; lra).
    all: try (apply (O _ 1 1); lra). all: try (apply (O _ 1 _); lra). all: apply (O _ _ _); lra.
  - destruct (mem (lower s) correct_inputs) eqn:M; [|reflexivity]. apply names_same in M. contradiction.
Qed.
Print Assumptions C49_names.
Theorem C49_not_a_string : sc_get_example None = Err ValueError.
Proof. reflexivity. Qed.
Print Assumptions C49_not_a_string.
(* names that have a branch in the code but are refused before it is reached *)
Theorem C49_unreachable_branches : Forall (fun s => sc_get_example (Some s) = Err ValueError) ["tri1"; "tria"; "tri2"; "trib"].
Proof. repeat constructor. Qed.
Print Assumptions C49_unreachable_branches.

(* The example named after a variation has the geometry of that variation. *)
Lemma mclc_example x k al : 1 < x <= 2 -> 0 < k <= 18 / 10 -> / 5 <= x * x - 1 -> 0 < al < 90 ->
  let a := x * PI * sin (al * TORADIANS) in let c := PI * (x * x) / (x * x - 1) * cos (al * TORADIANS) * k in
  exists conv g, 0 < a /\ 0 < PI /\ 0 < c /\ has_params conv a PI c al 90 90 /\ primitive_of "mC" conv (SC_MCLC a PI c al) /\
    k_gamma (SC_MCLC a PI c al) g /\ g < 90 /\ 1 - mclc_number a PI c al = (x * x - 1) / (x * x) * (1 - / k).
Proof.
  intros X K X5 L a c. pose proof PI_pos as P. pose proof PI_4 as P4.
  pose proof (mclc_a x al ltac:(lra) ltac:(lra)) as A. fold a in A.
  pose proof (mclc_c k x al ltac:(lra) ltac:(lra) L) as C. fold c in C.
  pose proof (sin_pos_deg al ltac:(lra)) as S. pose proof (cos_pos_deg al ltac:(lra)) as D. pose proof (sin2_cos2' (al * TORADIANS)) as U.
  destruct (C49_monoclinic a PI c al A P C ltac:(lra)) as (_ & conv & H & Q & _ & _).
  assert (S1 : sin (al * TORADIANS) <= 1) by nra. assert (D1 : cos (al * TORADIANS) <= 1) by nra.
  assert (A100 : a <= 100).
  { unfold a. assert (x * PI <= 2 * 4) by (apply Rmult_le_compat; lra). nra. }
  assert (C100 : c <= 100).
  { unfold c. assert (I : (x * x) / (x * x - 1) <= 6).
    { apply (Rmult_le_reg_r (x * x - 1)); [lra|]. replace (x * x / (x * x - 1) * (x * x - 1)) with (x * x) by (field; lra). nra. }
    assert (I0 : 0 < (x * x) / (x * x - 1)) by (apply Rdiv_lt_0_compat; nra).
    replace (PI * (x * x) / (x * x - 1)) with (PI * ((x * x) / (x * x - 1))) by (field; lra).
    set (w := x * x / (x * x - 1)) in *. clearbody w.
    assert (PI * w <= 4 * 6) by (apply Rmult_le_compat; lra).
    assert (PI * w * cos (al * TORADIANS) <= 24 * 1) by (apply Rmult_le_compat; nra).
    assert (0 < PI * w * cos (al * TORADIANS)) by (apply Rmult_lt_0_compat; [apply Rmult_lt_0_compat|]; lra).
    assert (PI * w * cos (al * TORADIANS) * k <= 24 * (18 / 10)) by (apply Rmult_le_compat; lra). lra. }
  destruct (C49_k_gamma a PI c al ltac:(lra) P ltac:(lra) ltac:(lra)) as (g & G & _ & _ & G3).
  exists conv, g. repeat split; auto; try apply H; try apply G.
  - apply G3. unfold a. assert (0 < PI * sin (al * TORADIANS)) by (apply Rmult_lt_0_compat; lra). nra.
  - unfold mclc_number. unfold a, c. set (s := sin _) in *. set (t := cos _) in *. field. repeat split; try lra; nra.
Qed.
Ltac pickv := first [ left; split; [reflexivity|] | right; pickv | split; [reflexivity|] ].
Theorem C49_variation : forall v s, In v SC_BRAVAIS_LATTICE_VARIATIONS -> ~ In v ["TRI1a"; "TRI1b"; "TRI2a"; "TRI2b"] ->
  lower s = lower v -> exists cell, sc_get_example (Some s) = Ok cell /\ is_variation v cell.
Proof.
  intros v s V N E. rewrite example_unfold, E. pose proof PI_pos as P.
  assert (O : forall a b c, 0 < a -> 0 < b -> 0 < c -> forall (Q : R -> R -> R -> Prop) lattice cell n,
    (exists conv, has_params conv a b c 90 90 90 /\ primitive_of lattice conv cell /\ det cell * n = a * b * c) -> Q a b c ->
    exists conv a b c, 0 < a /\ 0 < b /\ 0 < c /\ has_params conv a b c 90 90 90 /\ primitive_of lattice conv cell /\ Q a b c).
  { intros a b c A B C Q lattice cell n (conv & H & M & _) HQ. exists conv, a, b, c. auto 10. }
  cbn [In SC_BRAVAIS_LATTICE_VARIATIONS] in V.
  repeat (destruct V as [<-|V]; [|]); try contradiction; try (exfalso; apply N; cbn; tauto).
  all: match goal with |- context [if negb ?b then _ else _] => change b with true end; cbn [negb].
  all: match goal with |- context [lower ?x] => let y := eval vm_compute in (lower x) in change (lower x) with y end.
  all: unfold sc_get_example; cbn -[SC_CUB SC_FCC SC_BCC SC_TET SC_BCT SC_ORC SC_ORCF SC_ORCI SC_ORCC SC_HEX SC_RHL SC_MCL SC_MCLC SC_TRI PI det sin cos TORADIANS is_variation].
  all: assert (Ok1 : forall (m : mat) v, is_variation v m -> exists cell, Ok m = Ok cell /\ is_variation v cell) by (intros m v' Hm; exists m; auto).
  all: assert (OL : forall a b c, 0 < a -> 0 < b -> 0 < c -> _) by (exact C49_orthogonal_lattices).
  all: first [apply Ok1; unfold is_variation; pickv | idtac].
  all: try match goal with |- exists conv a b c, 0 < a /\ 0 < b /\ 0 < c /\ _ => idtac end.
  - destruct (OL PI PI PI P P P) as (Z & _). eapply (O PI PI PI); eauto.
  - destruct (OL PI PI PI P P P) as (_ & Z & _). eapply (O PI PI PI); eauto.
  - destruct (OL PI PI PI P P P) as (_ & _ & Z & _). eapply (O PI PI PI); eauto.
  - destruct (OL PI PI (15 / 10 * PI) P P ltac:(lra)) as (_ & _ & _ & Z & _). eapply (O PI PI (15 / 10 * PI)); eauto; lra.
  - destruct (OL (15 / 10 * PI) PI PI ltac:(lra) P P) as (_ & _ & _ & _ & Z & _). eapply (O (15 / 10 * PI) (15 / 10 * PI) PI); eauto; lra.
  - destruct (OL PI PI (15 / 10 * PI) P P ltac:(lra)) as (_ & _ & _ & _ & Z & _). eapply (O PI PI (15 / 10 * PI)); eauto; lra.
  - destruct (OL PI (15 / 10 * PI) (2 * PI) P ltac:(lra) ltac:(lra)) as (_ & _ & _ & _ & _ & Z & _). eapply (O PI (15 / 10 * PI) (2 * PI)); eauto; lra.
  - destruct (OL (7 / 10 * PI) (5 / 4 * PI) (5 / 3 * PI) ltac:(lra) ltac:(lra) ltac:(lra)) as (_ & _ & _ & _ & _ & _ & Z & _).
    eapply (O (7 / 10 * PI) (5 / 4 * PI) (5 / 3 * PI)); eauto; try lra. split; [lra|].
    replace (/ (5 / 4 * PI * (5 / 4 * PI)) + / (5 / 3 * PI * (5 / 3 * PI))) with (1 * / (PI * PI)) by (field; lra).
    replace (/ (7 / 10 * PI * (7 / 10 * PI))) with (100 / 49 * / (PI * PI)) by (field; lra).
    assert (0 < / (PI * PI)) by (apply Rinv_0_lt_compat; nra). lra.
  - destruct (OL (12 / 10 * PI) (5 / 4 * PI) (5 / 3 * PI) ltac:(lra) ltac:(lra) ltac:(lra)) as (_ & _ & _ & _ & _ & _ & Z & _).
    eapply (O (12 / 10 * PI) (5 / 4 * PI) (5 / 3 * PI)); eauto; try lra. split; [lra|].
    replace (/ (5 / 4 * PI * (5 / 4 * PI)) + / (5 / 3 * PI * (5 / 3 * PI))) with (1 * / (PI * PI)) by (field; lra).
    replace (/ (12 / 10 * PI * (12 / 10 * PI))) with (100 / 144 * / (PI * PI)) by (field; lra).
    assert (0 < / (PI * PI)) by (apply Rinv_0_lt_compat; nra). lra.
  - destruct (OL PI (5 / 4 * PI) (5 / 3 * PI) ltac:(lra) ltac:(lra) ltac:(lra)) as (_ & _ & _ & _ & _ & _ & Z & _).
    eapply (O PI (5 / 4 * PI) (5 / 3 * PI)); eauto; try lra. split; [lra|]. field; lra.
  - destruct (OL PI (13 / 10 * PI) (17 / 10 * PI) P ltac:(lra) ltac:(lra)) as (_ & _ & _ & _ & _ & _ & _ & Z & _).
    eapply (O PI (13 / 10 * PI) (17 / 10 * PI)); eauto; lra.
  - destruct (OL PI (13 / 10 * PI) (17 / 10 * PI) P ltac:(lra) ltac:(lra)) as (_ & _ & _ & _ & _ & _ & _ & _ & Z).
    eapply (O PI (13 / 10 * PI) (17 / 10 * PI)); eauto; lra.
  - exists PI, (2 * PI). repeat split; try lra; apply C49_hexagonal; lra.
  - destruct (C49_rhombohedral PI 70 P ltac:(lra)) as (K & _). destruct (K ltac:(lra)) as (cell & R1 & R2 & _).
    exists cell. split; auto. unfold is_variation. pickv. exists PI, 70. split; [lra|]. split; [lra|auto].
  - destruct (C49_rhombohedral PI 110 P ltac:(lra)) as (K & _). destruct (K ltac:(lra)) as (cell & R1 & R2 & _).
    exists cell. split; auto. unfold is_variation. pickv. exists PI, 110. split; [lra|]. split; [lra|auto].
  - exists PI, (13 / 10 * PI), (16 / 10 * PI), 75. do 5 (split; [lra|]). apply C49_monoclinic; lra.
  - pose proof PI_4. destruct (C49_monoclinic PI (14 / 10 * PI) (17 / 10 * PI) 80 P ltac:(lra) ltac:(lra) ltac:(lra)) as (_ & conv & H0 & Q & _).
    destruct (C49_k_gamma PI (14 / 10 * PI) (17 / 10 * PI) 80) as (k & G & G1 & _); try lra.
    exists conv, PI, (14 / 10 * PI), (17 / 10 * PI), 80, k. do 4 (split; [lra|]). do 3 (split; [assumption|]). apply G1.
    assert (S : 5 / 7 < sin (80 * TORADIANS)).
    { assert (SP : sin (60 * TORADIANS) < sin (80 * TORADIANS)).
      { assert (X : 90 * TORADIANS = PI / 2) by (unfold TORADIANS; field). pose proof TORADIANS_pos. apply sin_increasing_1; nra. }
      replace (60 * TORADIANS) with (PI / 3) in SP by (unfold TORADIANS; field). rewrite sin_PI3 in SP.
      pose proof sqrt3_sqr. assert (0 < sqrt 3) by (apply sqrt_lt_R0; lra). nra. }
    nra.
  - pose proof PI_4. pose proof (sin_pos_deg 75 ltac:(lra)) as S. pose proof (sin2_cos2' (75 * TORADIANS)) as U.
    assert (S1 : sin (75 * TORADIANS) <= 1) by nra.
    assert (A : 0 < 14 / 10 * PI * sin (75 * TORADIANS)) by (apply Rmult_lt_0_compat; lra).
    assert (A2 : 14 / 10 * PI * sin (75 * TORADIANS) <= 100) by nra.
    destruct (C49_monoclinic _ (14 / 10 * PI) (17 / 10 * PI) 75 A ltac:(lra) ltac:(lra) ltac:(lra)) as (_ & conv & H0 & Q & _).
    destruct (C49_k_gamma (14 / 10 * PI * sin (75 * TORADIANS)) (14 / 10 * PI) (17 / 10 * PI) 75) as (k & G & _ & G1 & _); try lra.
    exists conv, (14 / 10 * PI * sin (75 * TORADIANS)), (14 / 10 * PI), (17 / 10 * PI), 75, k.
    do 4 (split; [lra|]). do 3 (split; [assumption|]). apply G1. reflexivity.
  - destruct (mclc_example (11 / 10) (18 / 10) 78) as (conv & g & A & B & C & H & Q & G & G1 & N1); try lra.
    do 4 eexists. exists 78, g. split; [exact A|]. split; [exact B|]. split; [exact C|]. split; [lra|]. split; [exact H|]. do 2 (split; [assumption|]). split; lra.
  - destruct (mclc_example (12 / 10) 1 65) as (conv & g & A & B & C & H & Q & G & G1 & N1); try lra.
    rewrite Rmult_1_r in C, H, Q, G, N1.
    do 4 eexists. exists 65, g. split; [exact A|]. split; [exact B|]. split; [exact C|]. split; [lra|]. split; [exact H|]. do 2 (split; [assumption|]). split; lra.
  - destruct (mclc_example (14 / 10) (9 / 10) 53) as (conv & g & A & B & C & H & Q & G & G1 & N1); try lra.
    do 4 eexists. exists 53, g. split; [exact A|]. split; [exact B|]. split; [exact C|]. split; [lra|]. split; [exact H|]. do 2 (split; [assumption|]). split; lra.
Qed.
Print Assumptions C49_variation.

(* The triclinic examples are not in the standard setting: the definition of TRI1a asks for three obtuse
   reciprocal angles, and the example's first two reciprocal vectors meet at an acute one. (Its variation is
   found from the conventional cell, after a Niggli reduction.) *)
Lemma reciprocal_dot12 m r : get_reciprocal m = Ok r ->
  dot (row1 r) (row2 r) * (det m * det m) =
  4 * PI * PI * (dot (row1 m) (row3 m) * dot (row2 m) (row3 m) - dot (row1 m) (row2 m) * dot (row3 m) (row3 m)).
Proof.
  intros H. destruct (Req_dec (det m) 0) as [D|D]; [rewrite get_reciprocal_err in H by auto; discriminate|].
  rewrite get_reciprocal_ok in H by auto. injection H as <-.
  destruct m as [[a1 a2 a3] [b1 b2 b3] [c1 c2 c3]]. revert D. vunfold. intros D. field. exact D.
Qed.
Theorem C49_triclinic_setting_refuted : exists cell r,
  sc_get_example (Some "TRI1a") = Ok cell /\ get_reciprocal cell = Ok r /\ 0 < dot (row1 r) (row2 r).
Proof.
  destruct (tri_ok (/ 2) (/ 2) (/ 2) 50 60 80) as (cell & E & D).
  { unfold parallelepiped_check; rewrite andb_false_r; f_equal; apply ppc_spec; unfold default_length_tolerance, default_angle_tolerance; lra. }
  exists cell. eexists. split; [exact E|]. assert (D0 : det cell <> 0) by lra. split; [apply get_reciprocal_ok; auto|].
  pose proof (reciprocal_dot12 _ _ (get_reciprocal_ok _ D0)) as K.
  destruct (proj1 (C49_triclinic _ _ _ _ _ _ cell) E) as (_ & (A & B & C & _ & _ & _ & BC & AC & AB)).
  rewrite BC, AC, AB, <- norm_sqr, C in K.
  assert (T := TORADIANS_pos). assert (X : 90 * TORADIANS = PI / 2) by (unfold TORADIANS; field). pose proof PI_4 as P4. pose proof PI_pos as P.
  assert (C60 : cos (60 * TORADIANS) = 1 / 2) by (rewrite <- cos_PI3; f_equal; unfold TORADIANS; field).
  assert (C50 : 1 / 2 < cos (50 * TORADIANS)) by (rewrite <- C60; apply cos_decreasing_1; nra).
  assert (C80 : cos (80 * TORADIANS) < 1 / 4).
  { replace (80 * TORADIANS) with (PI / 2 - 10 * TORADIANS) by (rewrite <- X; ring). rewrite cos_shift.
    assert (10 * TORADIANS <= 4 / 18) by (unfold TORADIANS; lra).
    pose proof (sin_lt_x (10 * TORADIANS) ltac:(lra)). lra. }
  rewrite C60 in K. set (x := dot _ _) in *. set (u := cos (50 * TORADIANS)) in *. set (w := cos (80 * TORADIANS)) in *. clearbody x u w.
  assert (0 < PI * PI) by nra. assert (0 < det cell * det cell) by nra.
  assert (0 < x * (det cell * det cell)).
  { rewrite K. apply Rmult_lt_0_compat; [nra|]. lra. }
  nra.
Qed.
Print Assumptions C49_triclinic_setting_refuted.
Example C49_case : exists cell, sc_get_example (Some "OrcF3") = Ok cell /\ is_variation "ORCF3" cell.
Proof. apply C49_variation; [cbn; tauto| |reflexivity]. cbn. intuition discriminate. Qed.
