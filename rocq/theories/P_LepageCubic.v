(* P_LepageCubic.v : property C74, part two: a lattice is recognised from any of its cells *)
From Verif Require Import Base M_Strings M_Numerical M_Geometry F_Geometry M_Cell M_Niggli S_Niggli F_Niggli
  M_Voronoi M_ScExamples M_Lepage P_Niggli F_Minima F_Symmetry F_LepageEx P_Lepage F_Bravais F_Angles F_Classify P_Bravais P_Orientation P_Minima P_LepageLattice.
Open Scope R_scope.

(* ---------------- angles do not change when a cell is turned or scaled ---------------- *)
Lemma norm_scale k v : 0 < k -> norm (vscale k v) = k * norm v.
Proof.
  intros K. unfold norm. replace (dot (vscale k v) (vscale k v)) with (k * k * dot v v) by (destruct v; vunfold; ring).
  rewrite sqrt_mult_alt by nra. rewrite sqrt_square by lra. reflexivity.
Qed.
Lemma line_angle_scale j k t s d : 0 < j -> 0 < k -> line_angle (vscale j t) (vscale k s) d -> line_angle t s d.
Proof.
  intros J K [B C]. split; [exact B|]. rewrite C, !norm_scale by auto.
  replace (dot (vscale j t) (vscale k s)) with (j * k * dot t s) by (destruct t, s; vunfold; ring).
  rewrite Rabs_mult, (Rabs_right (j * k)) by nra.
  replace (j * norm t * (k * norm s)) with (j * k * (norm t * norm s)) by ring.
  unfold Rdiv. destruct (Req_dec (norm t * norm s) 0) as [Z|Z].
  - exfalso. unfold Rdiv in C. rewrite !norm_scale in C by auto.
    replace (j * norm t * (k * norm s)) with (j * k * (norm t * norm s)) in C by ring.
    rewrite Z, Rmult_0_r, Rinv_0, Rmult_0_r in C. 
    assert (0 < cos (d * PI / 180)); [|lra]. pose proof PI_RGT_0. apply cos_gt_0; nra.
  - field. repeat split; try lra; intros Q; rewrite Q in Z; lra.
Qed.
Lemma orthogonal_tr o : orthogonal o -> orthogonal (tr o).
Proof.
  intros O. unfold orthogonal. replace (tr (tr o)) with o by (destruct o as [[] [] []]; reflexivity).
  apply orthogonal_left, O.
Qed.
Lemma clear_cut_copy m k o limit : 0 < k -> orthogonal o -> clear_cut m limit -> clear_cut (mmul (mscale k m) o) limit.
Proof.
  intros K O C U h delta (SU & Sh & E & r & D & L). apply (C U h delta).
  split; [exact SU|]. split; [exact Sh|]. split; [exact E|].
  exists (mscale k (mmul r (tr o))). split.
  - rewrite <- D. destruct r as [[] [] []], m as [[] [] []], o as [[] [] []]. vunfold. vcomp; ring.
  - apply (line_angle_scale k (/ k)); auto using Rinv_0_lt_compat.
    destruct L as [B L]. split; [exact B|].
    assert (E1 : vmat (ofZv U) (mmul (mscale k m) o) = vmat (vscale k (vmat (ofZv U) m)) o).
    { rewrite mul_t. f_equal. generalize (ofZv U). intros []. destruct m as [[] [] []]. vunfold. vcomp; ring. }
    assert (E2 : vscale (/ k) (vmat (ofZv h) (mscale k (mmul r (tr o)))) = vmat (vmat (ofZv h) r) (tr o)).
    { generalize (ofZv h). intros []. destruct r as [[] [] []], o as [[] [] []]. vunfold. vcomp; field; lra. }
    assert (OT : orthogonal (tr o)) by (apply orthogonal_tr, O).
    rewrite E2, (norm_t _ OT).
    rewrite E1, (norm_t _ O) in L. rewrite L. f_equal. f_equal.
    rewrite <- (dot_t _ OT (vmat (vscale k (vmat (ofZv U) m)) o)). f_equal.
    rewrite <- mul_t. unfold orthogonal in O. rewrite O. generalize (vscale k (vmat (ofZv U) m)). intros []. vunfold. vcomp; ring.
Qed.

Lemma params_copy c d : cell_params c = cell_params d -> copy_of c d.
Proof.
  unfold cell_params, copy_of. intros E. injection E as E1 E2 E3 E4 E5 E6. revert E1 E2 E3 E4 E5 E6.
  destruct c as [[] [] []], d as [[] [] []]. vunfold. intros. vcomp; lra.
Qed.

(* ================= C74: the name ================= *)
(* If the documented primitive cell m of a lattice is Niggli reduced, then every cell of that lattice,
   in every orientation, gets the name of the lattice. *)
Theorem C74_identifies : forall f name m o given d angle_tolerance limit,
  standard name m -> niggli_reduced m -> det m <> 0 -> 0 < limit -> clear_cut m limit ->
  orthogonal o -> same_lattice (mmul m o) given ->
  f given (1 / 100000) = Ok d -> same_lattice d given -> niggli_reduced d ->
  0 < Rabs angle_tolerance <= 1 ->
  lepage (Some f) given angle_tolerance false limit = Ok name.
Proof.
  intros f name m o g d tol lim S R D L CC O SL F SD RD T.
  destruct (reduced_turned m d o D O) as (o' & O' & E); auto.
  { apply same_trans with g; auto. apply same_sym, SD. }
  apply (C60_identifies (Some f) g d name m); auto.
  - unfold lepage_cell, get_niggli. cbv zeta. change (String.eqb (lower "spglib"%string) "spglib"%string) with true.
    cbv iota. rewrite F. reflexivity.
  - apply params_copy. rewrite E. apply params_turned, O'.
  - rewrite E. replace m with (mscale 1 m) by (destruct m as [[] [] []]; vunfold; vcomp; ring).
    apply clear_cut_copy; auto; lra.
Qed.
Print Assumptions C74_identifies.

Inductive cubic : string -> (R -> mat) -> Prop :=
| cubic_p : cubic "CUB" SC_CUB
| cubic_f : cubic "FCC" SC_FCC
| cubic_i : cubic "BCC" SC_BCC.

Lemma cubic_facts name m a : cubic name m -> 0 < a ->
  standard name (m a) /\ niggli_reduced (m a) /\ det (m a) <> 0 /\ clear_cut (m a) 2.
Proof.
  intros C A. assert (A2 : 0 < a * a) by nra. assert (A3 : 0 < a * a * a) by nra.
  assert (CS : forall z k, 0 < k -> det (ofZ z) <> 0 -> separated z = true -> mscale k (ofZ z) = m a -> clear_cut (m a) 2).
  { intros z k K D S <-. replace (mscale k (ofZ z)) with (mmul (mscale k (ofZ z)) mid) by (unfold ofZ; vunfold; vcomp; ring).
    apply clear_cut_copy; auto using separated_clear_cut. unfold orthogonal. vunfold. vcomp; ring. }
  destruct C; (split; [constructor; auto|]).
  - split; [|split].
    + unfold niggli_reduced, cell_params, SC_CUB. vunfold. split; unfold near; cbn [nA nB nC nxi neta nzeta];
        repeat (rewrite Rabs_pos_eq by lra); try (right; lra); try lra; try (intros; unfold Rabs in *; repeat destruct Rcase_abs; lra).
    + unfold SC_CUB. vunfold. lra.
    + apply (CS (Zm 1 0 0 0 1 0 0 0 1) a); [exact A|unfold ofZ; vunfold; lra|vm_compute; reflexivity|unfold ofZ, SC_CUB; vunfold; vcomp; ring].
  - split; [|split].
    + unfold niggli_reduced, cell_params, SC_FCC. vunfold. split; unfold near; cbn [nA nB nC nxi neta nzeta];
        try (left; lra); try lra; try (intros; unfold Rabs in *; repeat destruct Rcase_abs; lra).
    + unfold SC_FCC. vunfold. lra.
    + apply (CS (Zm 0 1 1 1 0 1 1 1 0) (a / 2)); [lra|unfold ofZ; vunfold; lra|vm_compute; reflexivity|unfold ofZ, SC_FCC; vunfold; vcomp; field].
  - split; [|split].
    + unfold niggli_reduced, cell_params, SC_BCC. vunfold. split; unfold near; cbn [nA nB nC nxi neta nzeta];
        try (right; lra); try lra; try (intros; unfold Rabs in *; repeat destruct Rcase_abs; lra).
    + unfold SC_BCC. vunfold. lra.
    + apply (CS (Zm (-1) 1 1 1 (-1) 1 1 1 (-1)) (a / 2)); [lra|unfold ofZ; vunfold; lra|vm_compute; reflexivity|unfold ofZ, SC_BCC; vunfold; vcomp; field].
Qed.

(* The cubic lattices, with the default limit of 2 degrees: no condition on the cell that is given. *)
Theorem C74_cubic : forall f name m a o given d angle_tolerance,
  cubic name m -> 0 < a -> orthogonal o -> same_lattice (mmul (m a) o) given ->
  f given (1 / 100000) = Ok d -> same_lattice d given -> niggli_reduced d ->
  0 < Rabs angle_tolerance <= 1 ->
  lepage (Some f) given angle_tolerance false 2 = Ok name.
Proof.
  intros f name m a o g d tol C A O S F SD RD T. destruct (cubic_facts name m a C A) as (St & R & D & CC).
  apply (C74_identifies f name (m a) o g d); auto; lra.
Qed.
Print Assumptions C74_cubic.

(* A skew cell of the face-centred lattice. *)
Example C74_cubic_case : exists f, lepage (Some f) (mk 0 2 2 2 2 4 2 4 2) 1 false 2 = Ok "FCC"%string.
Proof.
  exists (fun _ _ => Ok (SC_FCC 4)). destruct (cubic_facts "FCC" SC_FCC 4 cubic_f ltac:(lra)) as (_ & R & _).
  assert (S : same_lattice (mk 0 2 2 2 2 4 2 4 2) (SC_FCC 4)).
  { replace (mk 0 2 2 2 2 4 2 4 2) with (mmul (ofZ (Zm 1 0 0 1 1 0 1 0 1)) (SC_FCC 4))
      by (unfold ofZ, SC_FCC; vunfold; vcomp; field).
    apply unimodular_same_lattice. left. reflexivity. }
  apply (C74_cubic _ "FCC" SC_FCC 4 mid _ (SC_FCC 4)); auto using cubic_f; try lra.
  - unfold orthogonal. vunfold. vcomp; ring.
  - replace (mmul (SC_FCC 4) mid) with (SC_FCC 4) by (unfold SC_FCC; vunfold; vcomp; ring). apply same_sym, S.
  - apply same_sym, S.
  - rewrite Rabs_right; lra.
Qed.
