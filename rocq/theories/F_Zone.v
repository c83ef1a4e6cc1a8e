(* F_Zone.v : sufficient condition to be in the first Brillouin zone.  The square of the length of a
   vector of the lattice is written as a sum of squares of integer forms l with weights p >= 0, the
   scalar product with k as the same sum with coefficients t between -1 and 1; m*m >= t*m for every
   integer m. *)
From Verif Require Import Base M_Strings M_Dict M_Numerical M_Geometry M_Cell F_Geometry S_Zone.
Open Scope string_scope.
Open Scope list_scope.
Open Scope R_scope.

Definition lin (l : zvec) (x : vec) : R := IZR (zx l) * vx x + IZR (zy l) * vy x + IZR (zz l) * vz x.
Definition zlin (l n : zvec) : Z := (zx l * zx n + zy l * zy n + zz l * zz n)%Z.
Lemma lin_int l n : lin l (ofZv n) = IZR (zlin l n).
Proof. unfold lin, zlin, ofZv. cbn. rewrite !plus_IZR, !mult_IZR. reflexivity. Qed.
Definition terms := list (zvec * R).
Fixpoint form (ts : terms) (x y : vec) : R :=
  match ts with [] => 0 | (l, p) :: ts => p * (lin l x * lin l y) + form ts x y end.
Fixpoint tform (ts : terms) (t : list R) (y : vec) : R :=
  match ts, t with (l, p) :: ts, a :: t => p * (a * lin l y) + tform ts t y | _, _ => 0 end.
Definition metric (r : mat) (K : R) (ts : terms) : Prop := forall x y, dot (vmat x r) (vmat y r) = K * form ts x y.
Definition nonneg (ts : terms) : Prop := Forall (fun lp => 0 <= snd lp) ts.
(* one coefficient per form, and the vector n of the lattice the point is as close to *)
Fixpoint bounded (ts : terms) (t : list R) (n : zvec) : Prop :=
  match ts, t with
  | [], [] => True
  | (l, p) :: ts, a :: t => (- 1 <= a <= 1) /\ (IZR (zlin l n) * (IZR (zlin l n) - a) = 0) /\ bounded ts t n
  | _, _ => False
  end.

Lemma form_lin_y ts x y : form ts x y = vx y * form ts x (V3 1 0 0) + vy y * form ts x (V3 0 1 0) + vz y * form ts x (V3 0 0 1).
Proof. induction ts as [|[l p] ts IH]; cbn; [ring|]. rewrite IH. unfold lin. cbn. ring. Qed.
Lemma tform_lin ts : forall t y, tform ts t y = vx y * tform ts t (V3 1 0 0) + vy y * tform ts t (V3 0 1 0) + vz y * tform ts t (V3 0 0 1).
Proof. induction ts as [|[l p] ts IH]; intros [|a t] y; cbn; try ring. rewrite (IH t y). unfold lin. cbn. ring. Qed.
Lemma int_sqr (m : Z) t : - 1 <= t <= 1 -> 0 <= IZR m * (IZR m - t).
Proof.
  intros T. destruct (Z.lt_trichotomy m 0) as [H|[H|H]].
  - assert (IZR m <= -1) by (apply IZR_le; lia). nra.
  - subst. lra.
  - assert (1 <= IZR m) by (apply IZR_le; lia). nra.
Qed.
Lemma sum_nonneg ts : forall t n v, nonneg ts -> bounded ts t n -> 0 <= form ts (ofZv v) (ofZv v) - tform ts t (ofZv v).
Proof.
  induction ts as [|[l p] ts IH]; intros [|a t] n v P B; cbn in *; try contradiction; [lra|].
  destruct B as (A & _ & B). inversion P as [|? ? P1 P2]; subst. cbn in P1.
  specialize (IH t n v P2 B). rewrite !lin_int. pose proof (int_sqr (zlin l v) a A). nra.
Qed.
Lemma sum_zero ts : forall t n, bounded ts t n -> form ts (ofZv n) (ofZv n) - tform ts t (ofZv n) = 0.
Proof.
  induction ts as [|[l p] ts IH]; intros [|a t] n B; cbn in *; try contradiction; [lra|].
  destruct B as (A & Z & B). specialize (IH t n B). rewrite !lin_int.
  replace (p * (IZR (zlin l n) * IZR (zlin l n)) + form ts (ofZv n) (ofZv n) - (p * (a * IZR (zlin l n)) + tform ts t (ofZv n)))
    with (p * (IZR (zlin l n) * (IZR (zlin l n) - a)) + (form ts (ofZv n) (ofZv n) - tform ts t (ofZv n))) by ring.
  rewrite Z, IH. ring.
Qed.
Lemma dist_form r K ts k v : metric r K ts ->
  dist2 (vmat k r) (vmat (ofZv v) r) - dist2 (vmat k r) vzero = K * (form ts (ofZv v) (ofZv v) - 2 * form ts k (ofZv v)).
Proof.
  intros M. replace (dist2 (vmat k r) (vmat (ofZv v) r) - dist2 (vmat k r) vzero)
    with (dot (vmat (ofZv v) r) (vmat (ofZv v) r) - 2 * dot (vmat k r) (vmat (ofZv v) r)) by (unfold dist2; generalize (vmat k r), (vmat (ofZv v) r); intros; vunfold; ring).
  rewrite !M. ring.
Qed.

(* ---- points of a table ---- *)
Definition zone_ok (r : mat) (kv : string * vec) : Prop :=
  in_zone r (vmat (snd kv) r) /\ (fst kv <> "GAMMA" -> on_surface r (vmat (snd kv) r)).
Lemma point_ok r K ts t n name k : 0 < K -> metric r K ts -> nonneg ts ->
  bounded ts t n ->
  2 * form ts k (V3 1 0 0) = tform ts t (V3 1 0 0) ->
  2 * form ts k (V3 0 1 0) = tform ts t (V3 0 1 0) ->
  2 * form ts k (V3 0 0 1) = tform ts t (V3 0 0 1) ->
  n <> Zv 0 0 0 -> zone_ok r (name, k).
Proof.
  intros KP M P B E1 E2 E3 N.
  assert (E : forall v, dist2 (vmat k r) (vmat (ofZv v) r) - dist2 (vmat k r) vzero = K * (form ts (ofZv v) (ofZv v) - tform ts t (ofZv v))).
  { intros v. rewrite (dist_form r K ts k v M). f_equal. rewrite (tform_lin ts t), (form_lin_y ts k (ofZv v)), <- E1, <- E2, <- E3. ring. }
  assert (Z : in_zone r (vmat k r)).
  { intros v. specialize (E v). pose proof (sum_nonneg ts t n v P B). nra. }
  split; [exact Z|]. intros _. split; [exact Z|]. exists n. split; [exact N|].
  specialize (E n). rewrite (sum_zero ts t n B) in E. cbn [snd]. lra.
Qed.
Lemma gamma_ok r : zone_ok r ("GAMMA", V3 0 0 0).
Proof.
  split; [|intros H; destruct (H eq_refl)]. intros n. cbn [snd]. generalize (vmat (ofZv n) r). intros g. unfold dist2. vunfold. nra.
Qed.

(* ---- the scalar products of the reciprocal basis ---- *)
Definition fmat (ts : terms) : mat :=
  let e1 := V3 1 0 0 in let e2 := V3 0 1 0 in let e3 := V3 0 0 1 in
  M3 (V3 (form ts e1 e1) (form ts e1 e2) (form ts e1 e3))
     (V3 (form ts e2 e1) (form ts e2 e2) (form ts e2 e3))
     (V3 (form ts e3 e1) (form ts e3 e2) (form ts e3 e3)).
Lemma form_fmat ts x y : dot (vmat x (fmat ts)) y = form ts x y.
Proof.
  induction ts as [|[l p] ts IH]; [unfold fmat; cbn; vunfold; cbn; ring|].
  cbn [form]. rewrite <- IH. unfold fmat. cbn [form]. unfold lin. vunfold. cbn. ring.
Qed.
Lemma dot_gram x y r : dot (vmat x r) (vmat y r) = dot (vmat x (mmul r (tr r))) y.
Proof. vunfold. ring. Qed.
Definition gram (m : mat) : mat := mmul m (tr m).
Lemma reciprocal_gram cell r F : get_reciprocal cell = Ok r -> mmul F (gram cell) = mid -> gram r = mscale (4 * (PI * PI)) F.
Proof.
  intros R E. pose proof (reciprocal_dual _ _ R) as D.
  assert (DC : det cell <> 0) by (intros Z; rewrite (get_reciprocal_err _ Z) in R; discriminate).
  assert (D2 : mmul (tr r) cell = mscale (2 * PI) mid).
  { apply (mmul_cancel_r (tr cell)); [rewrite det_tr; auto|]. 
    apply (f_equal tr) in D.
    rewrite get_reciprocal_ok in R by auto. injection R as <-.
    transitivity (mscale (2 * PI) (mmul (mmul (minv_total cell) cell) (tr cell))).
    - generalize (minv_total cell), (2 * PI). clear. intros m x. destruct m, cell. vring.
    - rewrite minv_l by auto. generalize (2 * PI). clear. intros. vring. }
  apply (mmul_cancel_r (gram cell)).
  { unfold gram. rewrite det_mmul, det_tr. intros Z. apply Rmult_integral in Z. tauto. }
  transitivity (mscale (4 * (PI * PI)) mid).
  - unfold gram. rewrite mmul_assoc, <- (mmul_assoc (tr r)), D2.
    transitivity (mscale (2 * PI) (mmul r (tr cell))); [generalize (2 * PI); clear; intros; vring|]. rewrite D. generalize PI. clear. intros. vring.
  - rewrite <- E. generalize (gram cell), (4 * (PI * PI)). clear. intros. vring.
Qed.
Lemma prim_metric m cc r G ts : get_reciprocal (mmul (tr m) cc) = Ok r -> gram cc = G -> mmul (fmat ts) (mmul (mmul (tr m) G) m) = mid ->
  metric r (4 * (PI * PI)) ts.
Proof.
  intros R GC E x y. rewrite dot_gram. change (mmul r (tr r)) with (gram r).
  rewrite (reciprocal_gram _ r (fmat ts) R).
  - rewrite <- form_fmat. generalize (fmat ts), (4 * (PI * PI)). clear. intros. vunfold. ring.
  - rewrite <- GC in E. rewrite <- E. f_equal. unfold gram. clear. vring.
Qed.
