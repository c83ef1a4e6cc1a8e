(* F_Numerical.v : proofs about compare_with_tolerance *)
From Verif Require Import Base M_Numerical.
Open Scope R_scope.

Lemma cwt_lt x y e : cwt x CLt y e = true <-> x < y - e.
Proof. unfold cwt; bcase; simpl; intuition (try discriminate; lra). Qed.
Lemma cwt_gt x y e : cwt x CGt y e = true <-> y < x - e.
Proof. unfold cwt; bcase; simpl; intuition (try discriminate; lra). Qed.
Lemma cwt_le x y e : cwt x CLe y e = true <-> x - e <= y.
Proof. unfold cwt; bcase; simpl; intuition (try discriminate; lra). Qed.
Lemma cwt_ge x y e : cwt x CGe y e = true <-> y - e <= x.
Proof. unfold cwt; bcase; simpl; intuition (try discriminate; lra). Qed.
Lemma cwt_eq x y e : cwt x CEq y e = true <-> - e <= x - y <= e.
Proof. unfold cwt; bcase; simpl; intuition (try discriminate; lra). Qed.
Lemma cwt_eq_abs x y e : cwt x CEq y e = true <-> Rabs (x - y) <= e.
Proof.
  rewrite cwt_eq. split; intros H.
  - apply Rabs_le; lra.
  - unfold Rabs in H; destruct (Rcase_abs (x - y)); lra.
Qed.
Lemma cwt_ne x y e : cwt x CNe y e = true <-> x < y - e \/ y < x - e.
Proof. unfold cwt; bcase; simpl; intuition (try discriminate; lra). Qed.
Lemma cwt_lt_f x y e : cwt x CLt y e = false <-> y - e <= x.
Proof. unfold cwt; bcase; simpl; intuition (try discriminate; lra). Qed.
Lemma cwt_gt_f x y e : cwt x CGt y e = false <-> x - e <= y.
Proof. unfold cwt; bcase; simpl; intuition (try discriminate; lra). Qed.
Lemma cwt_le_f x y e : cwt x CLe y e = false <-> y < x - e.
Proof. unfold cwt; bcase; simpl; intuition (try discriminate; lra). Qed.
Lemma cwt_ge_f x y e : cwt x CGe y e = false <-> x < y - e.
Proof. unfold cwt; bcase; simpl; intuition (try discriminate; lra). Qed.
Lemma cwt_eq_f x y e : cwt x CEq y e = false <-> x < y - e \/ y < x - e.
Proof. unfold cwt; bcase; simpl; intuition (try discriminate; lra). Qed.
Lemma cwt_ne_f x y e : cwt x CNe y e = false <-> - e <= x - y <= e.
Proof. unfold cwt; bcase; simpl; intuition (try discriminate; lra). Qed.

Lemma parse_none s :
  ~ In s ["<"; ">"; "<="; ">="; "=="; "!="]%string -> parse_cmp s = None.
Proof.
  intros H. unfold parse_cmp.
  repeat match goal with
  | |- context [String.eqb ?a ?b] => destruct (String.eqb_spec a b); [subst; exfalso; apply H; simpl; tauto|]
  end. reflexivity.
Qed.

Lemma compare_true s c x y eps rtol atol : parse_cmp s = Some c ->
  (compare_with_tolerance x s y eps rtol atol = Ok true <->
   cwt x c y (resolve_eps eps rtol atol y) = true).
Proof. intros H. unfold compare_with_tolerance. rewrite H. split; congruence. Qed.
