(* P_Numerical.v : properties C01, C02 *)
From Verif Require Import Base M_Numerical F_Numerical.
Open Scope R_scope.

(* Specification vocabulary. *)
Definition conditions : list string := ["<"; ">"; "<="; ">="; "=="; "!="]%string.
Definition exactly_one (p q r : Prop) : Prop :=
  (p /\ ~ q /\ ~ r) \/ (~ p /\ q /\ ~ r) \/ (~ p /\ ~ q /\ r).
Definition holds (x : R) (c : string) (y : R) (eps : option R) (rtol atol : R) : Prop :=
  compare_with_tolerance x c y eps rtol atol = Ok true.

(* C01: the three pairs of conditions are complementary, for any tolerance (even negative). *)
Theorem C01_complementary : forall x y eps rtol atol a b,
  In (a, b) [("<", ">="); (">", "<="); ("==", "!=")]%string ->
  exists v, compare_with_tolerance x a y eps rtol atol = Ok v /\
            compare_with_tolerance x b y eps rtol atol = Ok (negb v).
Proof.
  intros x y eps rtol atol a b [H|[H|[H|[]]]]; injection H; intros; subst;
    unfold compare_with_tolerance; simpl; eexists; (split; [reflexivity|]);
    rewrite ?negb_involutive; reflexivity.
Qed.
Print Assumptions C01_complementary.

(* C01: meaning of each condition in plain inequalities, explicit tolerance. *)
Theorem C01_meaning : forall x y e rtol atol,
  (holds x "<"  y (Some e) rtol atol <-> y - x > e) /\
  (holds x ">"  y (Some e) rtol atol <-> x - y > e) /\
  (holds x "<=" y (Some e) rtol atol <-> x - y <= e) /\
  (holds x ">=" y (Some e) rtol atol <-> y - x <= e) /\
  (holds x "==" y (Some e) rtol atol <-> Rabs (x - y) <= e) /\
  (holds x "!=" y (Some e) rtol atol <-> e < Rabs (x - y)).
Proof.
  intros. unfold holds.
  rewrite (compare_true "<" CLt), (compare_true ">" CGt), (compare_true "<=" CLe),
    (compare_true ">=" CGe), (compare_true "==" CEq), (compare_true "!=" CNe) by reflexivity.
  cbn [resolve_eps]. rewrite cwt_lt, cwt_gt, cwt_le, cwt_ge, cwt_eq_abs, cwt_ne.
  unfold Rabs; destruct (Rcase_abs (x - y)); lra.
Qed.
Print Assumptions C01_meaning.

(* C01: with no explicit tolerance two numbers are equal up to 1e-8 + 1e-5 |y|. *)
Theorem C01_default_tolerance : forall x y,
  (holds x "==" y None default_rtol default_atol <-> Rabs (x - y) <= 1 / 10 ^ 8 + Rabs y / 10 ^ 5) /\
  (holds x "<" y None default_rtol default_atol <-> y - x > 1 / 10 ^ 8 + Rabs y / 10 ^ 5) /\
  (holds x ">" y None default_rtol default_atol <-> x - y > 1 / 10 ^ 8 + Rabs y / 10 ^ 5).
Proof.
  intros. unfold holds.
  rewrite (compare_true "==" CEq), (compare_true "<" CLt), (compare_true ">" CGt) by reflexivity.
  cbn [resolve_eps]. rewrite cwt_lt, cwt_gt, cwt_eq_abs. unfold default_rtol, default_atol.
  replace (1 / 10 ^ 8 + Rabs y / 10 ^ 5) with (/ 100000000 + / 100000 * Rabs y) by lra. lra.
Qed.
Print Assumptions C01_default_tolerance.

(* C01: trichotomy for every non-negative effective tolerance: explicit, or the
   default atol + rtol*|y| . *)
Theorem C01_trichotomy : forall x y eps rtol atol,
  match eps with Some e => 0 <= e | None => 0 <= atol + rtol * Rabs y end ->
  exactly_one (holds x "<" y eps rtol atol)
              (holds x "==" y eps rtol atol)
              (holds x ">" y eps rtol atol).
Proof.
  intros x y eps rtol atol H.
  set (e := resolve_eps eps rtol atol y).
  assert (He : 0 <= e) by (subst e; destruct eps; exact H).
  assert (A : holds x "<" y eps rtol atol <-> x < y - e).
  { unfold holds. rewrite (compare_true "<" CLt) by reflexivity. apply cwt_lt. }
  assert (B : holds x "==" y eps rtol atol <-> - e <= x - y <= e).
  { unfold holds. rewrite (compare_true "==" CEq) by reflexivity. apply cwt_eq. }
  assert (C : holds x ">" y eps rtol atol <-> y < x - e).
  { unfold holds. rewrite (compare_true ">" CGt) by reflexivity. apply cwt_gt. }
  unfold exactly_one. rewrite A, B, C.
  destruct (Rlt_dec x (y - e)); [left; lra|].
  destruct (Rlt_dec y (x - e)); [right; right; lra|]. right; left; lra.
Qed.
Print Assumptions C01_trichotomy.
Example C01_trichotomy_nonvacuous :
  0 <= default_atol + default_rtol * Rabs 5 /\
  holds 5 "==" 5 None default_rtol default_atol /\
  holds 4 "<" 5 None default_rtol default_atol.
Proof.
  unfold holds. rewrite (compare_true "==" CEq), (compare_true "<" CLt) by reflexivity.
  rewrite cwt_eq, cwt_lt. unfold resolve_eps, default_atol, default_rtol.
  rewrite (Rabs_pos_eq 5) by lra. lra.
Qed.

(* C01: the non-negativity hypothesis of trichotomy cannot be dropped. *)
Theorem C01_negative_eps_refuted : exists x y e rtol atol,
  holds x "<" y (Some e) rtol atol /\ holds x ">" y (Some e) rtol atol.
Proof.
  exists 0, 0, (-1), 0, 0. unfold holds, compare_with_tolerance; simpl.
  split; f_equal; apply Rltb_true; lra.
Qed.
Print Assumptions C01_negative_eps_refuted.

(* C01: the function accepts exactly the six condition strings. *)
Theorem C01_unknown_condition : forall x c y eps rtol atol,
  (In c conditions <-> exists v, compare_with_tolerance x c y eps rtol atol = Ok v) /\
  (~ In c conditions -> compare_with_tolerance x c y eps rtol atol = Err ValueError).
Proof.
  intros. split; [split|].
  - intros [<-|[<-|[<-|[<-|[<-|[<-|[]]]]]]]; unfold compare_with_tolerance; simpl; eexists; reflexivity.
  - intros [v Hv]. destruct (in_dec string_dec c conditions) as [i|n]; [exact i|].
    unfold compare_with_tolerance in Hv. rewrite (parse_none c n) in Hv. discriminate.
  - intros n. unfold compare_with_tolerance. rewrite (parse_none c n). reflexivity.
Qed.
Print Assumptions C01_unknown_condition.

(* C02: with explicit tolerance equality is reflexive and symmetric, and the strict
   order is a strict partial order. *)
Theorem C02_order_laws : forall x y z e rtol atol, 0 <= e ->
  holds x "==" x (Some e) rtol atol /\
  (holds x "==" y (Some e) rtol atol <-> holds y "==" x (Some e) rtol atol) /\
  (holds x "<" y (Some e) rtol atol <-> holds y ">" x (Some e) rtol atol) /\
  (holds x "<" y (Some e) rtol atol -> holds y "<" z (Some e) rtol atol ->
   holds x "<" z (Some e) rtol atol) /\
  ~ holds x "<" x (Some e) rtol atol.
Proof.
  intros x y z e rtol atol He.
  pose proof (C01_meaning x x e rtol atol) as (Lxx & _ & _ & _ & Exx & _).
  pose proof (C01_meaning x y e rtol atol) as (Lxy & _ & _ & _ & Exy & _).
  pose proof (C01_meaning y x e rtol atol) as (_ & Gyx & _ & _ & Eyx & _).
  pose proof (C01_meaning y z e rtol atol) as (Lyz & _).
  pose proof (C01_meaning x z e rtol atol) as (Lxz & _).
  rewrite Lxx, Exx, Lxy, Exy, Gyx, Eyx, Lyz, Lxz.
  rewrite (Rabs_minus_sym y x), Rminus_diag_eq, Rabs_R0 by reflexivity.
  repeat split; intros; try tauto; lra.
Qed.
Print Assumptions C02_order_laws.
Example C02_order_laws_nonvacuous :
  (0 <= 1)%R /\ holds 0 "<" 2 (Some 1) 0 0 /\ holds 2 "<" 4 (Some 1) 0 0.
Proof. unfold holds, compare_with_tolerance; simpl. repeat split; try lra; f_equal; apply Rltb_true; lra. Qed.

(* C02: default (relative) tolerance: equality is not symmetric. *)
Theorem C02_default_symmetry_refuted : exists x y,
  holds x "==" y None default_rtol default_atol /\
  ~ holds y "==" x None default_rtol default_atol.
Proof.
  (* x = 100000, y = x + t with rtol x + atol < t <= rtol y + atol *)
  exists 100000, (100000 + 1 + 2 * / 100000000 + / 1000000).
  unfold holds. rewrite !(compare_true "==" CEq) by reflexivity.
  rewrite !cwt_eq. unfold resolve_eps, default_atol, default_rtol.
  rewrite !Rabs_pos_eq by lra. lra.
Qed.
Print Assumptions C02_default_symmetry_refuted.

(* C02: tolerant equality is not transitive, for any positive tolerance. *)
Theorem C02_transitivity_refuted : forall e rtol atol, 0 < e -> exists x y z,
  holds x "==" y (Some e) rtol atol /\ holds y "==" z (Some e) rtol atol /\
  ~ holds x "==" z (Some e) rtol atol.
Proof.
  intros e rtol atol He. exists 0, e, (2 * e).
  pose proof (C01_meaning 0 e e rtol atol) as (_ & _ & _ & _ & E1 & _).
  pose proof (C01_meaning e (2*e) e rtol atol) as (_ & _ & _ & _ & E2 & _).
  pose proof (C01_meaning 0 (2*e) e rtol atol) as (_ & _ & _ & _ & E3 & _).
  rewrite E1, E2, E3.
  rewrite (Rabs_left1 (0 - e)), (Rabs_left1 (e - 2 * e)), (Rabs_left1 (0 - 2 * e)) by lra. lra.
Qed.
Print Assumptions C02_transitivity_refuted.
Example C02_transitivity_nonvacuous : 0 < 1. Proof. lra. Qed.
