(* F_ZoneCells.v : the scalar products of the reciprocal vectors of the primitive cell (see F_Zone.v)
   for every lattice type, from the shape of the conventional cell. *)
From Verif Require Import Base M_Strings M_Dict M_Numerical M_Geometry M_Cell T_Points T_Tables F_Geometry F_Conventional S_Zone F_Zone F_ZoneTables F_ZoneTables2.
Open Scope string_scope.
Open Scope list_scope.
Open Scope R_scope.

Lemma gram_dots c : gram c = M3 (V3 (dot (row1 c) (row1 c)) (dot (row1 c) (row2 c)) (dot (row1 c) (row3 c)))
                                (V3 (dot (row1 c) (row2 c)) (dot (row2 c) (row2 c)) (dot (row2 c) (row3 c)))
                                (V3 (dot (row1 c) (row3 c)) (dot (row2 c) (row3 c)) (dot (row3 c) (row3 c))).
Proof. unfold gram. destruct c as [[] [] []]. vring. Qed.
Lemma params_dots c p : get_params c = Ok p ->
  0 < pa p /\ 0 < pb p /\ 0 < pc p /\
  gram c = M3 (V3 (pa p * pa p) (pa p * pb p * cos (pgamma p * TORADIANS)) (pa p * pc p * cos (pbeta p * TORADIANS)))
              (V3 (pa p * pb p * cos (pgamma p * TORADIANS)) (pb p * pb p) (pb p * pc p * cos (palpha p * TORADIANS)))
              (V3 (pa p * pc p * cos (pbeta p * TORADIANS)) (pb p * pc p * cos (palpha p * TORADIANS)) (pc p * pc p)).
Proof.
  intros H. apply get_params_inv in H. destruct H as (B & ->).
  destruct (get_params_ok c) as (p & E & (NA & NB & NC & _ & _ & _ & X & Y & Z)); try apply B.
  rewrite get_params_val in E by auto. injection E as <-.
  destruct (big_pos c B) as (P1 & P2 & P3). cbn [params_val pa pb pc] in *. repeat (split; [assumption|]).
  rewrite gram_dots, X, Y, Z, <- !norm_sqr. reflexivity.
Qed.
Definition box (a b c : R) : mat := M3 (V3 (a * a) 0 0) (V3 0 (b * b) 0) (V3 0 0 (c * c)).
Ltac metric_of R G :=
  eapply prim_metric; [exact R|exact G|]; try clear R; unfold box; unfold fmat, mid, mk; cbn [form]; unfold lin; vunfold; cbn [vx vy vz zx zy zz row1 row2 row3];
  f_equal; (f_equal; field; auto with real; repeat split; auto with real).

Definition t_P : mat := mk 1 0 0 0 1 0 0 0 1.
Definition t_F : mat := mk 0 (1/2) (1/2) (1/2) 0 (1/2) (1/2) (1/2) 0.
Definition t_I : mat := mk (-1/2) (1/2) (1/2) (1/2) (-1/2) (1/2) (1/2) (1/2) (-1/2).
Definition t_C : mat := mk (1/2) (1/2) 0 (-1/2) (1/2) 0 0 0 1.
Definition t_A : mat := mk 0 0 1 (1/2) (1/2) 0 (-1/2) (1/2) 0.
Definition t_mC : mat := mk (1/2) (-1/2) 0 (1/2) (1/2) 0 0 0 1.
Section Box.
  Context (cc r : mat) (a b c : R).
  Hypotheses (Ha : a <> 0) (Hb : b <> 0) (Hc : c <> 0) (G : gram cc = box a b c).
  Lemma met_P : get_reciprocal (mmul (tr t_P) cc) = Ok r -> metric r (4 * (PI * PI)) (terms_H69cP (/ (a * a)) (/ (b * b)) (/ (c * c))).
  Proof. intros R. unfold terms_H69cP, t_P in *. metric_of R G. Qed.
  Lemma met_F : get_reciprocal (mmul (tr t_F) cc) = Ok r ->
    metric r (4 * (PI * PI)) (terms_H70cF (/ (a * a)) (/ (b * b)) (/ (c * c))) /\
    metric r (4 * (PI * PI)) (terms_H76oF (/ (a * a)) (/ (b * b)) (/ (c * c))) /\
    metric r (4 * (PI * PI)) (terms_H77oF (/ (a * a)) (/ (b * b)) (/ (c * c))).
  Proof. intros R. unfold terms_H70cF, terms_H76oF, terms_H77oF, t_F in *. split; [|split]; metric_of R G. Qed.
  Lemma met_I : get_reciprocal (mmul (tr t_I) cc) = Ok r ->
    metric r (4 * (PI * PI)) (terms_H74tI (/ (a * a)) (/ (b * b)) (/ (c * c))) /\
    metric r (4 * (PI * PI)) (terms_H80oI (/ (a * a)) (/ (b * b)) (/ (c * c))) /\
    metric r (4 * (PI * PI)) (terms_H81oI (/ (a * a)) (/ (b * b)) (/ (c * c))).
  Proof. intros R. unfold terms_H74tI, terms_H80oI, terms_H81oI, t_I in *. split; [|split]; metric_of R G. Qed.
  Lemma met_C : get_reciprocal (mmul (tr t_C) cc) = Ok r ->
    metric r (4 * (PI * PI)) (terms_H82oC (/ (a * a)) (/ (b * b)) (/ (c * c))) /\
    metric r (4 * (PI * PI)) (terms_H83oC (/ (a * a)) (/ (b * b)) (/ (c * c))).
  Proof. intros R. unfold terms_H82oC, terms_H83oC, t_C in *. split; metric_of R G. Qed.
  Lemma met_A : get_reciprocal (mmul (tr t_A) cc) = Ok r ->
    metric r (4 * (PI * PI)) (terms_H82oA (/ (a * a)) (/ (b * b)) (/ (c * c))) /\
    metric r (4 * (PI * PI)) (terms_H83oA (/ (a * a)) (/ (b * b)) (/ (c * c))).
  Proof. intros R. unfold terms_H82oA, terms_H83oA, t_A in *. split; metric_of R G. Qed.
End Box.
Lemma met_tI cc r a c : a <> 0 -> c <> 0 -> gram cc = box a a c -> get_reciprocal (mmul (tr t_I) cc) = Ok r ->
  metric r (4 * (PI * PI)) (terms_H73tI (/ (a * a)) (/ (c * c))).
Proof. intros Ha Hc G R. unfold terms_H73tI, t_I in *. metric_of R G. Qed.
Lemma met_cI cc r a : a <> 0 -> gram cc = box a a a -> get_reciprocal (mmul (tr t_I) cc) = Ok r ->
  metric r (4 * (PI * PI)) (terms_H71cI (/ (a * a))).
Proof. intros Ha G R. unfold terms_H71cI, t_I in *. metric_of R G. Qed.
Lemma met_hP cc r a c : a <> 0 -> c <> 0 -> gram cc = M3 (V3 (a * a) (- (a * a) / 2) 0) (V3 (- (a * a) / 2) (a * a) 0) (V3 0 0 (c * c)) ->
  get_reciprocal (mmul (tr t_P) cc) = Ok r -> metric r (4 * (PI * PI)) (terms_H84hP (2 / (3 * (a * a))) (/ (c * c))).
Proof. intros Ha Hc G R. unfold terms_H84hP, t_P in *. metric_of R G. Qed.
(* oblique cells: q and s are the cosine and the sine of the oblique angle *)
Ltac metric_mono R G :=
  eapply prim_metric; [exact R|exact G|]; try clear R; unfold fmat, mid, mk; cbn [form]; unfold lin; vunfold; cbn [vx vy vz zx zy zz row1 row2 row3];
  f_equal; (f_equal; match goal with PQ : ?q * ?q = 1 - ?s * ?s |- _ => field [PQ]; auto with real; repeat split; auto with real end).
Section Mono.
  Context (cc r : mat) (a b c q s : R).
  Hypotheses (Ha : a <> 0) (Hb : b <> 0) (Hc : c <> 0) (Hs : s <> 0) (PQ : q * q = 1 - s * s).
  Section H.
    Hypothesis G : gram cc = M3 (V3 (a * a) 0 (a * c * q)) (V3 0 (b * b) 0) (V3 (a * c * q) 0 (c * c)).
    Let A := / (a * a * (s * s)). Let B := / (b * b). Let C := / (c * c * (s * s)). Let E := - q / (a * c * (s * s)).
    Lemma met_mP : get_reciprocal (mmul (tr t_P) cc) = Ok r -> metric r (4 * (PI * PI)) (terms_H87mP A B C E).
    Proof. intros R. unfold terms_H87mP, t_P, A, B, C, E in *. metric_mono R G. Qed.
    Lemma met_mC : get_reciprocal (mmul (tr t_mC) cc) = Ok r ->
      metric r (4 * (PI * PI)) (terms_H88mC A B C E) /\ metric r (4 * (PI * PI)) (terms_H89mC A B C E) /\ metric r (4 * (PI * PI)) (terms_H90mC A B C E).
    Proof. intros R. unfold terms_H88mC, terms_H89mC, terms_H90mC, t_mC, A, B, C, E in *. split; [|split]; metric_mono R G. Qed.
  End H.
  Section S.
    Hypothesis G : gram cc = M3 (V3 (a * a) 0 0) (V3 0 (b * b) (b * c * q)) (V3 0 (b * c * q) (c * c)).
    Let A := / (a * a). Let B := / (b * b * (s * s)). Let C := / (c * c * (s * s)). Let E := - q / (b * c * (s * s)).
    Lemma met_SmP : get_reciprocal (mmul (tr t_P) cc) = Ok r -> metric r (4 * (PI * PI)) (terms_S16mP A B C E).
    Proof. intros R. unfold terms_S16mP, t_P, A, B, C, E in *. metric_mono R G. Qed.
    Lemma met_SmC : get_reciprocal (mmul (tr t_mC) cc) = Ok r ->
      metric r (4 * (PI * PI)) (terms_S17mC A B C E) /\ metric r (4 * (PI * PI)) (terms_S18mC A B C E) /\ metric r (4 * (PI * PI)) (terms_S19mC A B C E).
    Proof. intros R. unfold terms_S17mC, terms_S18mC, terms_S19mC, t_mC, A, B, C, E in *. split; [|split]; metric_mono R G. Qed.
  End S.
End Mono.
Section Rho.
  Context (cc r : mat) (a q : R).
  Hypotheses (Ha : a <> 0) (H1 : 1 - q <> 0) (H2 : 1 + 2 * q <> 0).
  Hypothesis G : gram cc = M3 (V3 (a * a) (a * a * q) (a * a * q)) (V3 (a * a * q) (a * a) (a * a * q)) (V3 (a * a * q) (a * a * q) (a * a)).
  Let s := (1 + q) / (a * a * (1 - q) * (1 + 2 * q)).
  Let g := - q / (a * a * (1 - q) * (1 + 2 * q)).
  Lemma met_hR : get_reciprocal (mmul (tr t_P) cc) = Ok r ->
    metric r (4 * (PI * PI)) (terms_S14hR s g) /\ metric r (4 * (PI * PI)) (terms_S15hR s g).
  Proof. intros R. unfold terms_S14hR, terms_S15hR, t_P, s, g in *. split; metric_of R G. Qed.
End Rho.

(* ---- triclinic lattices: the scalar products are those of the reciprocal vectors themselves ---- *)
Definition terms_obtuse (r : mat) : terms :=
  let x := dot (row1 r) (row2 r) in let y := dot (row1 r) (row3 r) in let z := dot (row2 r) (row3 r) in
  [(Zv 1 (-1) 0, - x); (Zv 1 0 (-1), - y); (Zv 0 1 (-1), - z); (Zv 1 0 0, dot (row1 r) (row1 r) + x + y);
   (Zv 0 1 0, dot (row2 r) (row2 r) + x + z); (Zv 0 0 1, dot (row3 r) (row3 r) + y + z)].
Definition terms_acute (r : mat) : terms :=
  let x := dot (row1 r) (row2 r) in let y := dot (row1 r) (row3 r) in let z := dot (row2 r) (row3 r) in
  [(Zv 1 1 1, x); (Zv 1 0 1, y - x); (Zv 0 1 1, z - x); (Zv 1 0 0, dot (row1 r) (row1 r) - y);
   (Zv 0 1 0, dot (row2 r) (row2 r) - z); (Zv 0 0 1, dot (row3 r) (row3 r) - y - z + x)].
Lemma metric_rows r ts :
  form ts (V3 1 0 0) (V3 1 0 0) = dot (row1 r) (row1 r) -> form ts (V3 1 0 0) (V3 0 1 0) = dot (row1 r) (row2 r) -> form ts (V3 1 0 0) (V3 0 0 1) = dot (row1 r) (row3 r) ->
  form ts (V3 0 1 0) (V3 0 1 0) = dot (row2 r) (row2 r) -> form ts (V3 0 1 0) (V3 0 0 1) = dot (row2 r) (row3 r) -> form ts (V3 0 0 1) (V3 0 0 1) = dot (row3 r) (row3 r) ->
  metric r 1 ts.
Proof.
  intros E1 E2 E3 E4 E5 E6 x y. rewrite <- form_fmat. 
  assert (SY : forall u v, form ts u v = form ts v u) by (intros u v; clear; induction ts as [|[l p] ts IH]; cbn [form]; [auto|rewrite IH; ring]).
  assert (F : fmat ts = gram r).
  { rewrite gram_dots. unfold fmat. rewrite (SY (V3 0 1 0) (V3 1 0 0)), (SY (V3 0 0 1) (V3 1 0 0)), (SY (V3 0 0 1) (V3 0 1 0)), E1, E2, E3, E4, E5, E6. reflexivity. }
  rewrite F, dot_gram. unfold gram. ring.
Qed.
Lemma metric_obtuse r : metric r 1 (terms_obtuse r).
Proof. apply metric_rows; unfold terms_obtuse; cbn [form]; unfold lin; cbn [vx vy vz zx zy zz]; ring. Qed.
Lemma metric_acute r : metric r 1 (terms_acute r).
Proof. apply metric_rows; unfold terms_acute; cbn [form]; unfold lin; cbn [vx vy vz zx zy zz]; ring. Qed.
(* all points of these tables are halves of vectors of the lattice *)
Lemma half_ok r ts name n : metric r 1 ts -> nonneg ts -> Forall (fun lp => (-1 <= zlin (fst lp) n <= 1)%Z) ts -> n <> Zv 0 0 0 ->
  zone_ok r (name, V3 (IZR (zx n) / 2) (IZR (zy n) / 2) (IZR (zz n) / 2)).
Proof.
  intros M N B Z. apply (point_ok r 1 ts (map (fun lp => IZR (zlin (fst lp) n)) ts) n); auto; try lra.
  - clear - B. induction B as [|[l p] ts (B1 & B2) B IH]; cbn; auto. cbn in B1, B2. apply IZR_le in B1, B2. split; [lra|]. split; [ring|exact IH].
  - clear. induction ts as [|[l p] ts IH]; cbn [form tform map fst]; [ring|]. rewrite <- IH, <- (lin_int l n). unfold lin, ofZv. cbn [vx vy vz]. field.
  - clear. induction ts as [|[l p] ts IH]; cbn [form tform map fst]; [ring|]. rewrite <- IH, <- (lin_int l n). unfold lin, ofZv. cbn [vx vy vz]. field.
  - clear. induction ts as [|[l p] ts IH]; cbn [form tform map fst]; [ring|]. rewrite <- IH, <- (lin_int l n). unfold lin, ofZv. cbn [vx vy vz]. field.
Qed.
Ltac half n M N := match goal with |- zone_ok ?r (?name, ?k) =>
  replace k with (V3 (IZR (zx n) / 2) (IZR (zy n) / 2) (IZR (zz n) / 2)) by (cbn [zx zy zz]; f_equal; lra); apply (half_ok r _ name n M N); [|discriminate];
  repeat (apply Forall_cons; [vm_compute; split; discriminate|]); apply Forall_nil end.
Lemma zone_S20aP r pts : nonneg (terms_obtuse r) -> sc_table_20 = Ok pts -> Forall (zone_ok r) pts.
Proof.
  intros N H. injection H as <-. pose proof (metric_obtuse r) as M.
  apply Forall_cons; [apply gamma_ok|].
  apply Forall_cons; [half (Zv 1 1 0) M N|]. apply Forall_cons; [half (Zv 0 1 1) M N|]. apply Forall_cons; [half (Zv 1 0 1) M N|].
  apply Forall_cons; [half (Zv 1 1 1) M N|]. apply Forall_cons; [half (Zv 1 0 0) M N|]. apply Forall_cons; [half (Zv 0 1 0) M N|].
  apply Forall_cons; [half (Zv 0 0 1) M N|]. apply Forall_nil.
Qed.
Lemma zone_H91aP r pts : nonneg (terms_obtuse r) -> hpkot_table_91 = Ok pts -> Forall (fun kv => fst kv <> "Z" -> zone_ok r kv) pts.
Proof.
  intros N H. injection H as <-. pose proof (metric_obtuse r) as M.
  apply Forall_cons; [intros _; apply gamma_ok|]. apply Forall_cons; [intros Z; destruct Z; reflexivity|].
  apply Forall_cons; [intros _; half (Zv 0 1 0) M N|]. apply Forall_cons; [intros _; half (Zv 1 0 0) M N|]. apply Forall_cons; [intros _; half (Zv 1 1 0) M N|].
  apply Forall_cons; [intros _; half (Zv 1 0 1) M N|]. apply Forall_cons; [intros _; half (Zv 0 1 1) M N|]. apply Forall_cons; [intros _; half (Zv 1 1 1) M N|]. apply Forall_nil.
Qed.
Lemma zone_S21aP r pts : nonneg (terms_acute r) -> sc_table_21 = Ok pts -> Forall (zone_ok r) pts.
Proof.
  intros N H. injection H as <-. pose proof (metric_acute r) as M.
  apply Forall_cons; [apply gamma_ok|].
  apply Forall_cons; [half (Zv 1 (-1) 0) M N|]. apply Forall_cons; [half (Zv 0 0 1) M N|]. apply Forall_cons; [half (Zv (-1) (-1) 1) M N|].
  apply Forall_cons; [half (Zv 0 (-1) 1) M N|]. apply Forall_cons; [half (Zv 0 (-1) 0) M N|]. apply Forall_cons; [half (Zv 1 0 0) M N|].
  apply Forall_cons; [half (Zv (-1) 0 1) M N|]. apply Forall_nil.
Qed.
Lemma zone_H92aP r pts : nonneg (terms_acute r) -> hpkot_table_92 = Ok pts -> Forall (zone_ok r) pts.
Proof.
  intros N H. injection H as <-. pose proof (metric_acute r) as M.
  apply Forall_cons; [apply gamma_ok|].
  apply Forall_cons; [half (Zv 0 0 1) M N|]. apply Forall_cons; [half (Zv 0 1 0) M N|]. apply Forall_cons; [half (Zv 0 (-1) 0) M N|].
  apply Forall_cons; [half (Zv 1 0 0) M N|]. apply Forall_cons; [half (Zv 1 (-1) 0) M N|]. apply Forall_cons; [half (Zv (-1) 0 1) M N|].
  apply Forall_cons; [half (Zv 0 (-1) 1) M N|]. apply Forall_cons; [half (Zv (-1) (-1) 1) M N|]. apply Forall_nil.
Qed.
