(* F_ZoneTables2.v : the same for the rhombohedral (SC) and monoclinic tables.  Certificates (see F_Zone.v) for every point of every table of high-symmetry points.
   The names say: convention (H: HPKOT, S: SC), number of the table, lattice type. *)
From Verif Require Import Base M_Strings M_Dict M_Numerical M_Geometry M_Cell T_Points F_Geometry S_Zone F_Zone F_ZoneTables.
Open Scope string_scope.
Open Scope list_scope.
Open Scope R_scope.

Ltac pyth x q s := pose proof (sin2_cos2 x) as PY; unfold Rsqr in PY; set (s := sin x) in *; set (q := cos x) in *;
  assert (PQ : q * q = 1 - s * s) by lra; clear PY.
Ltac no_cos := try match goal with H : 2 * _ * ?q <> 0 |- ?q <> 0 => intros Z; apply H; rewrite Z; ring end.
Lemma half_tan x : cos (x / 2) <> 0 -> sq (tan (x / 2)) = (1 - cos x) / (1 + cos x) /\ 1 + cos x <> 0.
Proof.
  intros C. assert (E : cos x = 2 * (cos (x / 2) * cos (x / 2)) - 1).
  { replace x with (2 * (x / 2)) at 1 by field. rewrite cos_2a_cos. ring. }
  pose proof (sin2_cos2 (x / 2)) as P. unfold Rsqr in P. split.
  - rewrite E. unfold sq, tan. set (q := cos (x / 2)) in *. set (s := sin (x / 2)) in *.
    assert (Q : s * s = 1 - q * q) by lra. replace (s / q * (s / q)) with (s * s / (q * q)) by (field; auto). rewrite Q. field. split; [intros Z; apply C; assert (X : q * q = 0) by lra; apply Rmult_integral in X; tauto|auto].
  - rewrite E. intros Z. apply C. assert (X : cos (x / 2) * cos (x / 2) = 0) by lra. apply Rmult_integral in X. tauto.
Qed.
Ltac pt_mono KP MET NN t n := pt_with ltac:(first [lra|match goal with PQ : ?q * ?q = 1 - ?s * ?s |- _ => field [PQ]; nz; no_cos end]) KP MET NN t n.
Ltac pt_rho KP MET NN t n := pt_with ltac:(first [lra|field; nz]) KP MET NN t n.
Definition terms_S14hR (s g : R) : terms := [(Zv 1 (-1) 0, - g); (Zv 1 0 (-1), - g); (Zv 0 1 (-1), - g); (Zv 1 0 0, s + 2 * g); (Zv 0 1 0, s + 2 * g); (Zv 0 0 1, s + 2 * g)].
Lemma zone_S14hR r K a alpha pts : 0 < K -> 0 < a -> cos (alpha * TORADIANS) <> 1 -> 1 + 2 * cos (alpha * TORADIANS) <> 0 -> nonneg (terms_S14hR ((1 + cos (alpha * TORADIANS)) / (a * a * (1 - cos (alpha * TORADIANS)) * (1 + 2 * cos (alpha * TORADIANS)))) (- cos (alpha * TORADIANS) / (a * a * (1 - cos (alpha * TORADIANS)) * (1 + 2 * cos (alpha * TORADIANS))))) -> metric r K (terms_S14hR ((1 + cos (alpha * TORADIANS)) / (a * a * (1 - cos (alpha * TORADIANS)) * (1 + 2 * cos (alpha * TORADIANS)))) (- cos (alpha * TORADIANS) / (a * a * (1 - cos (alpha * TORADIANS)) * (1 + 2 * cos (alpha * TORADIANS))))) -> sc_table_14 alpha = Ok pts -> Forall (zone_ok r) pts.
Proof.
  intros KP Ha HS1 HS2 NN MET H. zone_start H sc_table_14. unfold terms_S14hR in *.
  apply Forall_cons; [apply gamma_ok|].
  apply Forall_cons; [pt_rho KP MET NN [1; 1; 1; 1; 1; 1] (Zv 1 0 0)|]. (* B *)
  apply Forall_cons; [pt_rho KP MET NN [1; 1; 1; 1; 1; (-1)] (Zv 0 0 (-1))|]. (* B1 *)
  apply Forall_cons; [pt_rho KP MET NN [0; 1; 1; 1; 1; 0] (Zv 1 1 0)|]. (* F *)
  apply Forall_cons; [pt_rho KP MET NN [1; 1; 0; 1; 0; 0] (Zv 1 0 0)|]. (* L *)
  apply Forall_cons; [pt_rho KP MET NN [0; 1; 1; 0; 0; (-1)] (Zv 0 0 (-1))|]. (* L1 *)
  apply Forall_cons; [pt_rho KP MET NN [1; 1; 0; 1; 1; 1] (Zv 1 0 0)|]. (* P *)
  apply Forall_cons; [pt_rho KP MET NN [0; 1; 1; 1; 1; 1] (Zv 1 1 0)|]. (* P1 *)
  apply Forall_cons; [pt_rho KP MET NN [0; 1; 1; 1; 1; (-1)] (Zv 0 0 (-1))|]. (* P2 *)
  apply Forall_cons; [pt_rho KP MET NN [1; 1; 1; 1; 1; 0] (Zv 1 0 0)|]. (* Q *)
  apply Forall_cons; [pt_rho KP MET NN [1; 1; 1; 1; 0; (-1)] (Zv 0 0 (-1))|]. (* X *)
  apply Forall_cons; [pt_rho KP MET NN [0; 0; 0; 1; 1; 1] (Zv 1 1 1)|]. (* Z *)
  apply Forall_nil.
Qed.
Definition terms_S15hR (s g : R) : terms := [(Zv 1 1 1, g); (Zv 1 0 0, s- g); (Zv 0 1 0, s- g); (Zv 0 0 1, s- g)].
Lemma zone_S15hR r K a alpha pts : 0 < K -> 0 < a -> cos (alpha * TORADIANS) <> 1 -> 1 + 2 * cos (alpha * TORADIANS) <> 0 -> nonneg (terms_S15hR ((1 + cos (alpha * TORADIANS)) / (a * a * (1 - cos (alpha * TORADIANS)) * (1 + 2 * cos (alpha * TORADIANS)))) (- cos (alpha * TORADIANS) / (a * a * (1 - cos (alpha * TORADIANS)) * (1 + 2 * cos (alpha * TORADIANS))))) -> metric r K (terms_S15hR ((1 + cos (alpha * TORADIANS)) / (a * a * (1 - cos (alpha * TORADIANS)) * (1 + 2 * cos (alpha * TORADIANS)))) (- cos (alpha * TORADIANS) / (a * a * (1 - cos (alpha * TORADIANS)) * (1 + 2 * cos (alpha * TORADIANS))))) -> sc_table_15 alpha = Ok pts -> Forall (zone_ok r) pts.
Proof.
  intros KP Ha HS1 HS2 NN MET H. zone_start H sc_table_15. unfold terms_S15hR in *.
  destruct (half_tan (alpha * TORADIANS)) as (HT & HC); [assumption|]. rewrite HT in *.
  apply Forall_cons; [apply gamma_ok|].
  apply Forall_cons; [pt_rho KP MET NN [0; 1; (-1); 0] (Zv 1 (-1) 0)|]. (* F *)
  apply Forall_cons; [pt_rho KP MET NN [1; 1; 0; 0] (Zv 1 0 0)|]. (* L *)
  apply Forall_cons; [pt_rho KP MET NN [0; 1; (-1); 1] (Zv 0 (-1) 1)|]. (* P *)
  apply Forall_cons; [pt_rho KP MET NN [0; 1; (-1); (-1)] (Zv 1 (-1) 0)|]. (* P1 *)
  apply Forall_cons; [pt_rho KP MET NN [1; 1; 1; 1] (Zv 0 0 1)|]. (* Q *)
  apply Forall_cons; [pt_rho KP MET NN [1; 1; (-1); (-1)] (Zv 1 0 0)|]. (* Q1 *)
  apply Forall_cons; [pt_rho KP MET NN [1; 1; (-1); 1] (Zv 0 0 1)|]. (* Z *)
  apply Forall_nil.
Qed.
Definition terms_H87mP (A B C E : R) : terms := [(Zv 0 0 1, C - E); (Zv 0 1 0, B); (Zv 1 0 0, A - E); (Zv 1 0 1, E)].
Lemma zone_H87mP r K a b c beta pts : 0 < K -> 0 < a -> 0 < b -> 0 < c -> sin (beta * TORADIANS) <> 0 -> nonneg (terms_H87mP (/ (a * a * (sin (beta * TORADIANS) * sin (beta * TORADIANS)))) (/ (b * b)) (/ (c * c * (sin (beta * TORADIANS) * sin (beta * TORADIANS)))) (- cos (beta * TORADIANS) / (a * c * (sin (beta * TORADIANS) * sin (beta * TORADIANS))))) -> metric r K (terms_H87mP (/ (a * a * (sin (beta * TORADIANS) * sin (beta * TORADIANS)))) (/ (b * b)) (/ (c * c * (sin (beta * TORADIANS) * sin (beta * TORADIANS)))) (- cos (beta * TORADIANS) / (a * c * (sin (beta * TORADIANS) * sin (beta * TORADIANS))))) -> hpkot_table_87 a c beta = Ok pts -> Forall (zone_ok r) pts.
Proof.
  intros KP Ha Hb Hc HS NN MET H. zone_start H hpkot_table_87. unfold terms_H87mP in *. pyth (beta * TORADIANS) q s.
  apply Forall_cons; [apply gamma_ok|].
  apply Forall_cons; [pt_mono KP MET NN [0; 1; 0; 0] (Zv 0 1 0)|]. (* Z *)
  apply Forall_cons; [pt_mono KP MET NN [1; 0; 0; 1] (Zv 0 0 1)|]. (* B *)
  apply Forall_cons; [pt_mono KP MET NN [(-1); 0; 0; (-1)] (Zv 0 0 (-1))|]. (* B2 *)
  apply Forall_cons; [pt_mono KP MET NN [0; 0; 1; 1] (Zv 1 0 0)|]. (* Y *)
  apply Forall_cons; [pt_mono KP MET NN [0; 0; (-1); (-1)] (Zv (-1) 0 0)|]. (* Y2 *)
  apply Forall_cons; [pt_mono KP MET NN [0; 1; 1; 1] (Zv 0 1 0)|]. (* C *)
  apply Forall_cons; [pt_mono KP MET NN [0; 1; (-1); (-1)] (Zv (-1) 0 0)|]. (* C2 *)
  apply Forall_cons; [pt_mono KP MET NN [1; 1; 0; 1] (Zv 0 0 1)|]. (* D *)
  apply Forall_cons; [pt_mono KP MET NN [(-1); 1; 0; (-1)] (Zv 0 0 (-1))|]. (* D2 *)
  apply Forall_cons; [pt_mono KP MET NN [1; 0; (-1); 0] (Zv (-1) 0 1)|]. (* A *)
  apply Forall_cons; [pt_mono KP MET NN [1; 1; (-1); 0] (Zv 0 1 0)|]. (* E *)
  apply Forall_cons; [pt_mono KP MET NN [1; 0; (-1); 1] (Zv 0 0 1)|]. (* H *)
  apply Forall_cons; [pt_mono KP MET NN [1; 0; (-1); (-1)] (Zv (-1) 0 0)|]. (* H2 *)
  apply Forall_cons; [pt_mono KP MET NN [(-1); 0; (-1); (-1)] (Zv (-1) 0 0)|]. (* H4 *)
  apply Forall_cons; [pt_mono KP MET NN [1; 1; (-1); 1] (Zv 0 0 1)|]. (* M *)
  apply Forall_cons; [pt_mono KP MET NN [1; 1; (-1); (-1)] (Zv (-1) 0 0)|]. (* M2 *)
  apply Forall_cons; [pt_mono KP MET NN [(-1); 1; (-1); (-1)] (Zv (-1) 0 0)|]. (* M4 *)
  apply Forall_nil.
Qed.
Definition terms_H88mC (A B C E : R) : terms := [(Zv 0 0 1, C - 2 * E); (Zv 0 1 (-1), E); (Zv 0 1 0, 2 * A - E); (Zv 1 0 0, 2 * A - E); (Zv 1 0 1, E); (Zv 1 1 0, B - A)].
Lemma zone_H88mC r K a b c beta pts : 0 < K -> 0 < a -> 0 < b -> 0 < c -> sin (beta * TORADIANS) <> 0 -> nonneg (terms_H88mC (/ (a * a * (sin (beta * TORADIANS) * sin (beta * TORADIANS)))) (/ (b * b)) (/ (c * c * (sin (beta * TORADIANS) * sin (beta * TORADIANS)))) (- cos (beta * TORADIANS) / (a * c * (sin (beta * TORADIANS) * sin (beta * TORADIANS))))) -> metric r K (terms_H88mC (/ (a * a * (sin (beta * TORADIANS) * sin (beta * TORADIANS)))) (/ (b * b)) (/ (c * c * (sin (beta * TORADIANS) * sin (beta * TORADIANS)))) (- cos (beta * TORADIANS) / (a * c * (sin (beta * TORADIANS) * sin (beta * TORADIANS))))) -> hpkot_table_88 a b c beta = Ok pts -> Forall (zone_ok r) pts.
Proof.
  intros KP Ha Hb Hc HS NN MET H. zone_start H hpkot_table_88. unfold terms_H88mC in *. pyth (beta * TORADIANS) q s.
  apply Forall_cons; [apply gamma_ok|].
  apply Forall_cons; [pt_mono KP MET NN [0; 1; 1; (-1); (-1); 0] (Zv (-1) 1 0)|]. (* Y2 *)
  apply Forall_cons; [pt_mono KP MET NN [0; (-1); (-1); 1; 1; 0] (Zv 1 (-1) 0)|]. (* Y4 *)
  apply Forall_cons; [pt_mono KP MET NN [1; (-1); 0; 0; 1; 0] (Zv 0 0 1)|]. (* A *)
  apply Forall_cons; [pt_mono KP MET NN [1; 0; 1; (-1); 0; 0] (Zv (-1) 1 1)|]. (* M2 *)
  apply Forall_cons; [pt_mono KP MET NN [0; 0; 0; 1; 1; 1] (Zv 1 0 0)|]. (* V *)
  apply Forall_cons; [pt_mono KP MET NN [0; 1; 1; 0; 0; 1] (Zv 0 1 0)|]. (* V2 *)
  apply Forall_cons; [pt_mono KP MET NN [1; 0; 1; 0; 1; 1] (Zv 0 1 1)|]. (* L2 *)
  apply Forall_cons; [pt_mono KP MET NN [0; 1; 1; 1; 1; 1] (Zv 0 1 0)|]. (* C *)
  apply Forall_cons; [pt_mono KP MET NN [0; 1; 1; (-1); (-1); 1] (Zv 0 1 0)|]. (* C2 *)
  apply Forall_cons; [pt_mono KP MET NN [0; (-1); (-1); 1; 1; 1] (Zv 1 0 0)|]. (* C4 *)
  apply Forall_cons; [pt_mono KP MET NN [1; 1; 1; (-1); 1; 1] (Zv 0 1 0)|]. (* D *)
  apply Forall_cons; [pt_mono KP MET NN [1; (-1); 1; 1; 1; 1] (Zv 0 0 1)|]. (* D2 *)
  apply Forall_cons; [pt_mono KP MET NN [1; 1; 1; (-1); (-1); 0] (Zv (-1) 1 0)|]. (* E *)
  apply Forall_cons; [pt_mono KP MET NN [1; (-1); 1; (-1); 1; 0] (Zv 0 0 1)|]. (* E2 *)
  apply Forall_cons; [pt_mono KP MET NN [1; (-1); (-1); 1; 1; 0] (Zv 0 0 1)|]. (* E4 *)
  apply Forall_nil.
Qed.
Definition terms_H89mC (A B C E : R) : terms := [(Zv 0 0 1, C - E); (Zv 0 1 0, 2 * B); (Zv 1 (-1) 0, A - B - E); (Zv 1 (-1) 1, E); (Zv 1 0 0, 2 * B)].
Lemma zone_H89mC r K a b c beta pts : 0 < K -> 0 < a -> 0 < b -> 0 < c -> sin (beta * TORADIANS) <> 0 -> nonneg (terms_H89mC (/ (a * a * (sin (beta * TORADIANS) * sin (beta * TORADIANS)))) (/ (b * b)) (/ (c * c * (sin (beta * TORADIANS) * sin (beta * TORADIANS)))) (- cos (beta * TORADIANS) / (a * c * (sin (beta * TORADIANS) * sin (beta * TORADIANS))))) -> metric r K (terms_H89mC (/ (a * a * (sin (beta * TORADIANS) * sin (beta * TORADIANS)))) (/ (b * b)) (/ (c * c * (sin (beta * TORADIANS) * sin (beta * TORADIANS)))) (- cos (beta * TORADIANS) / (a * c * (sin (beta * TORADIANS) * sin (beta * TORADIANS))))) -> hpkot_table_89 a b c beta = Ok pts -> Forall (zone_ok r) pts.
Proof.
  intros KP Ha Hb Hc HS NN MET H. zone_start H hpkot_table_89. unfold terms_H89mC in *. pyth (beta * TORADIANS) q s.
  apply Forall_cons; [apply gamma_ok|].
  apply Forall_cons; [pt_mono KP MET NN [0; 1; 0; 0; 1] (Zv 1 1 0)|]. (* Y *)
  apply Forall_cons; [pt_mono KP MET NN [1; 0; 0; 1; 0] (Zv 0 0 1)|]. (* A *)
  apply Forall_cons; [pt_mono KP MET NN [1; 1; 0; 1; 1] (Zv 0 0 1)|]. (* M *)
  apply Forall_cons; [pt_mono KP MET NN [0; 1; (-1); (-1); 0] (Zv 0 1 0)|]. (* V2 *)
  apply Forall_cons; [pt_mono KP MET NN [1; 1; (-1); 0; 0] (Zv 0 1 1)|]. (* L2 *)
  apply Forall_cons; [pt_mono KP MET NN [1; 1; (-1); (-1); (-1)] (Zv (-1) 0 0)|]. (* F *)
  apply Forall_cons; [pt_mono KP MET NN [1; 1; (-1); 1; 1] (Zv 0 0 1)|]. (* F2 *)
  apply Forall_cons; [pt_mono KP MET NN [1; 1; 1; 1; 1] (Zv 0 0 1)|]. (* F4 *)
  apply Forall_cons; [pt_mono KP MET NN [1; 1; (-1); 1; (-1)] (Zv 0 0 1)|]. (* H *)
  apply Forall_cons; [pt_mono KP MET NN [1; 1; (-1); (-1); 1] (Zv 0 1 0)|]. (* H2 *)
  apply Forall_cons; [pt_mono KP MET NN [1; (-1); 1; 1; 1] (Zv 0 (-1) 0)|]. (* H4 *)
  apply Forall_cons; [pt_mono KP MET NN [0; 1; (-1); (-1); (-1)] (Zv (-1) 0 0)|]. (* G *)
  apply Forall_cons; [pt_mono KP MET NN [0; 1; (-1); (-1); 1] (Zv 0 1 0)|]. (* G2 *)
  apply Forall_cons; [pt_mono KP MET NN [0; (-1); 1; 1; 1] (Zv 0 (-1) 0)|]. (* G4 *)
  apply Forall_cons; [pt_mono KP MET NN [0; 1; 1; 1; 1] (Zv 1 0 0)|]. (* G6 *)
  apply Forall_nil.
Qed.
Definition terms_H90mC (A B C E : R) : terms := [(Zv 0 0 1, A - B + C - 2 * E); (Zv 0 1 (-1), B + E - A); (Zv 0 1 0, A + B - E); (Zv 1 (-1) 1, A - B); (Zv 1 0 0, A + B - E); (Zv 1 0 1, B + E - A)].
Lemma zone_H90mC r K a b c beta pts : 0 < K -> 0 < a -> 0 < b -> 0 < c -> sin (beta * TORADIANS) <> 0 -> nonneg (terms_H90mC (/ (a * a * (sin (beta * TORADIANS) * sin (beta * TORADIANS)))) (/ (b * b)) (/ (c * c * (sin (beta * TORADIANS) * sin (beta * TORADIANS)))) (- cos (beta * TORADIANS) / (a * c * (sin (beta * TORADIANS) * sin (beta * TORADIANS))))) -> metric r K (terms_H90mC (/ (a * a * (sin (beta * TORADIANS) * sin (beta * TORADIANS)))) (/ (b * b)) (/ (c * c * (sin (beta * TORADIANS) * sin (beta * TORADIANS)))) (- cos (beta * TORADIANS) / (a * c * (sin (beta * TORADIANS) * sin (beta * TORADIANS))))) -> hpkot_table_90 a b c beta = Ok pts -> Forall (zone_ok r) pts.
Proof.
  intros KP Ha Hb Hc HS NN MET H. zone_start H hpkot_table_90. unfold terms_H90mC in *. pyth (beta * TORADIANS) q s.
  apply Forall_cons; [apply gamma_ok|].
  apply Forall_cons; [pt_mono KP MET NN [0; 1; 1; 0; 1; 1] (Zv 1 1 0)|]. (* Y *)
  apply Forall_cons; [pt_mono KP MET NN [1; (-1); 0; 1; 0; 1] (Zv 0 0 1)|]. (* A *)
  apply Forall_cons; [pt_mono KP MET NN [1; 0; 1; (-1); (-1); 0] (Zv (-1) 1 1)|]. (* M2 *)
  apply Forall_cons; [pt_mono KP MET NN [0; 0; 0; 1; 1; 1] (Zv 1 0 0)|]. (* V *)
  apply Forall_cons; [pt_mono KP MET NN [0; 1; 1; (-1); 0; 0] (Zv 0 1 0)|]. (* V2 *)
  apply Forall_cons; [pt_mono KP MET NN [1; 0; 1; 0; 0; 1] (Zv 0 1 1)|]. (* L2 *)
  apply Forall_cons; [pt_mono KP MET NN [1; 1; 1; (-1); (-1); 1] (Zv 0 1 0)|]. (* I *)
  apply Forall_cons; [pt_mono KP MET NN [1; (-1); 1; 1; 1; 1] (Zv 0 0 1)|]. (* I2 *)
  apply Forall_cons; [pt_mono KP MET NN [1; 1; 1; (-1); (-1); (-1)] (Zv (-1) 0 0)|]. (* K *)
  apply Forall_cons; [pt_mono KP MET NN [1; (-1); 1; (-1); (-1); 1] (Zv (-1) 0 1)|]. (* K2 *)
  apply Forall_cons; [pt_mono KP MET NN [1; 1; 1; 1; 1; 1] (Zv 1 0 0)|]. (* K4 *)
  apply Forall_cons; [pt_mono KP MET NN [1; (-1); 1; 1; (-1); 1] (Zv 0 0 1)|]. (* H *)
  apply Forall_cons; [pt_mono KP MET NN [1; 1; 1; (-1); 1; 1] (Zv 0 1 0)|]. (* H2 *)
  apply Forall_cons; [pt_mono KP MET NN [1; (-1); (-1); 1; 1; 1] (Zv 0 (-1) 0)|]. (* H4 *)
  apply Forall_cons; [pt_mono KP MET NN [0; 1; 1; (-1); (-1); (-1)] (Zv (-1) 0 0)|]. (* N *)
  apply Forall_cons; [pt_mono KP MET NN [0; 1; 1; (-1); 1; 1] (Zv 0 1 0)|]. (* N2 *)
  apply Forall_cons; [pt_mono KP MET NN [0; (-1); (-1); 1; 1; 1] (Zv 0 (-1) 0)|]. (* N4 *)
  apply Forall_cons; [pt_mono KP MET NN [0; 1; 1; 1; 1; 1] (Zv 1 0 0)|]. (* N6 *)
  apply Forall_nil.
Qed.
Definition terms_S16mP (A B C E : R) : terms := [(Zv 0 0 1, C + E); (Zv 0 1 (-1), - E); (Zv 0 1 0, B + E); (Zv 1 0 0, A)].
Lemma zone_S16mP r K a b c alpha pts : 0 < K -> 0 < a -> 0 < b -> 0 < c -> sin (alpha * TORADIANS) <> 0 -> nonneg (terms_S16mP (/ (a * a)) (/ (b * b * (sin (alpha * TORADIANS) * sin (alpha * TORADIANS)))) (/ (c * c * (sin (alpha * TORADIANS) * sin (alpha * TORADIANS)))) (- cos (alpha * TORADIANS) / (b * c * (sin (alpha * TORADIANS) * sin (alpha * TORADIANS))))) -> metric r K (terms_S16mP (/ (a * a)) (/ (b * b * (sin (alpha * TORADIANS) * sin (alpha * TORADIANS)))) (/ (c * c * (sin (alpha * TORADIANS) * sin (alpha * TORADIANS)))) (- cos (alpha * TORADIANS) / (b * c * (sin (alpha * TORADIANS) * sin (alpha * TORADIANS))))) -> sc_table_16 b c alpha = Ok pts -> Forall (zone_ok r) pts.
Proof.
  intros KP Ha Hb Hc HS NN MET H. zone_start H sc_table_16. unfold terms_S16mP in *. pyth (alpha * TORADIANS) q s.
  apply Forall_cons; [apply gamma_ok|].
  apply Forall_cons; [pt_mono KP MET NN [0; 1; 1; 1] (Zv 0 1 0)|]. (* A *)
  apply Forall_cons; [pt_mono KP MET NN [1; 0; 1; 0] (Zv 0 1 1)|]. (* C *)
  apply Forall_cons; [pt_mono KP MET NN [1; (-1); 0; 1] (Zv 0 0 1)|]. (* D *)
  apply Forall_cons; [pt_mono KP MET NN [(-1); 1; 0; 1] (Zv 0 0 (-1))|]. (* D1 *)
  apply Forall_cons; [pt_mono KP MET NN [1; 0; 1; 1] (Zv 1 0 0)|]. (* E *)
  apply Forall_cons; [pt_mono KP MET NN [1; (-1); 1; 0] (Zv 0 0 1)|]. (* H *)
  apply Forall_cons; [pt_mono KP MET NN [1; 1; 1; 0] (Zv 0 1 0)|]. (* H1 *)
  apply Forall_cons; [pt_mono KP MET NN [(-1); 1; 1; 0] (Zv 0 0 (-1))|]. (* H2 *)
  apply Forall_cons; [pt_mono KP MET NN [1; (-1); 1; 1] (Zv 0 0 1)|]. (* M *)
  apply Forall_cons; [pt_mono KP MET NN [1; 1; 1; 1] (Zv 0 1 0)|]. (* M1 *)
  apply Forall_cons; [pt_mono KP MET NN [(-1); 1; 1; 1] (Zv 0 0 (-1))|]. (* M2 *)
  apply Forall_cons; [pt_mono KP MET NN [0; 1; 1; 0] (Zv 0 1 0)|]. (* X *)
  apply Forall_cons; [pt_mono KP MET NN [1; (-1); 0; 0] (Zv 0 0 1)|]. (* Y *)
  apply Forall_cons; [pt_mono KP MET NN [(-1); 1; 0; 0] (Zv 0 0 (-1))|]. (* Y1 *)
  apply Forall_cons; [pt_mono KP MET NN [0; 0; 0; 1] (Zv 1 0 0)|]. (* Z *)
  apply Forall_nil.
Qed.
Definition terms_S17mC (A B C E : R) : terms := [(Zv 0 0 1, C + 2 * E); (Zv 0 1 (-1), - E); (Zv 0 1 0, 2 * B + E); (Zv 1 (-1) 0, A - B); (Zv 1 0 (-1), - E); (Zv 1 0 0, 2 * B + E)].
Lemma zone_S17mC r K a b c alpha pts : 0 < K -> 0 < a -> 0 < b -> 0 < c -> sin (alpha * TORADIANS) <> 0 -> nonneg (terms_S17mC (/ (a * a)) (/ (b * b * (sin (alpha * TORADIANS) * sin (alpha * TORADIANS)))) (/ (c * c * (sin (alpha * TORADIANS) * sin (alpha * TORADIANS)))) (- cos (alpha * TORADIANS) / (b * c * (sin (alpha * TORADIANS) * sin (alpha * TORADIANS))))) -> metric r K (terms_S17mC (/ (a * a)) (/ (b * b * (sin (alpha * TORADIANS) * sin (alpha * TORADIANS)))) (/ (c * c * (sin (alpha * TORADIANS) * sin (alpha * TORADIANS)))) (- cos (alpha * TORADIANS) / (b * c * (sin (alpha * TORADIANS) * sin (alpha * TORADIANS))))) -> sc_table_17 a b c alpha = Ok pts -> Forall (fun kv => fst kv <> "F3" -> zone_ok r kv) pts.
Proof.
  intros KP Ha Hb Hc HS NN MET H. zone_start H sc_table_17. unfold terms_S17mC in *. pyth (alpha * TORADIANS) q s.
  apply Forall_cons; [intros _; apply gamma_ok|].
  apply Forall_cons; [intros _; pt_mono KP MET NN [0; 0; 0; 1; 1; 1] (Zv 1 0 0)|]. (* N *)
  apply Forall_cons; [intros _; pt_mono KP MET NN [0; (-1); (-1); 1; 0; 0] (Zv 0 (-1) 0)|]. (* N1 *)
  apply Forall_cons; [intros _; pt_mono KP MET NN [1; 1; 1; 0; 1; 1] (Zv 1 1 0)|]. (* F *)
  apply Forall_cons; [intros _; pt_mono KP MET NN [1; (-1); 1; 0; (-1); 1] (Zv 0 0 1)|]. (* F1 *)
  apply Forall_cons; [intros _; pt_mono KP MET NN [1; (-1); (-1); 0; (-1); (-1)] (Zv 0 0 1)|]. (* F2 *)
  apply Forall_cons; [intros E; destruct (E eq_refl)|].
  apply Forall_cons; [intros _; pt_mono KP MET NN [1; (-1); 1; 1; 1; 1] (Zv 1 0 0)|]. (* I *)
  apply Forall_cons; [intros _; pt_mono KP MET NN [1; (-1); (-1); 1; (-1); 1] (Zv 0 (-1) 0)|]. (* I1 *)
  apply Forall_cons; [intros _; pt_mono KP MET NN [1; 0; 1; 0; 0; 1] (Zv 1 1 1)|]. (* L *)
  apply Forall_cons; [intros _; pt_mono KP MET NN [1; (-1); 0; 1; 0; 1] (Zv 1 0 1)|]. (* M *)
  apply Forall_cons; [intros _; pt_mono KP MET NN [0; (-1); (-1); 1; 1; 1] (Zv 0 (-1) 0)|]. (* X *)
  apply Forall_cons; [intros _; pt_mono KP MET NN [0; 1; 1; 1; 1; 1] (Zv 1 0 0)|]. (* X1 *)
  apply Forall_cons; [intros _; pt_mono KP MET NN [0; (-1); (-1); 1; (-1); (-1)] (Zv 0 (-1) 0)|]. (* X2 *)
  apply Forall_cons; [intros _; pt_mono KP MET NN [0; 1; 1; 0; 1; 1] (Zv 1 1 0)|]. (* Y *)
  apply Forall_cons; [intros _; pt_mono KP MET NN [0; (-1); (-1); 0; (-1); (-1)] (Zv (-1) (-1) 0)|]. (* Y1 *)
  apply Forall_cons; [intros _; pt_mono KP MET NN [1; (-1); 0; 0; (-1); 0] (Zv 0 0 1)|]. (* Z *)
  apply Forall_nil.
Qed.
Definition terms_S18mC (A B C E : R) : terms := [(Zv 0 0 1, C + E); (Zv 0 1 0, 2 * A); (Zv 1 0 0, 2 * A); (Zv 1 1 (-1), - E); (Zv 1 1 0, B + E - A)].
Lemma zone_S18mC r K a b c alpha pts : 0 < K -> 0 < a -> 0 < b -> 0 < c -> sin (alpha * TORADIANS) <> 0 -> nonneg (terms_S18mC (/ (a * a)) (/ (b * b * (sin (alpha * TORADIANS) * sin (alpha * TORADIANS)))) (/ (c * c * (sin (alpha * TORADIANS) * sin (alpha * TORADIANS)))) (- cos (alpha * TORADIANS) / (b * c * (sin (alpha * TORADIANS) * sin (alpha * TORADIANS))))) -> metric r K (terms_S18mC (/ (a * a)) (/ (b * b * (sin (alpha * TORADIANS) * sin (alpha * TORADIANS)))) (/ (c * c * (sin (alpha * TORADIANS) * sin (alpha * TORADIANS)))) (- cos (alpha * TORADIANS) / (b * c * (sin (alpha * TORADIANS) * sin (alpha * TORADIANS))))) -> sc_table_18 a b c alpha = Ok pts -> Forall (zone_ok r) pts.
Proof.
  intros KP Ha Hb Hc HS NN MET H. zone_start H sc_table_18. unfold terms_S18mC in *. pyth (alpha * TORADIANS) q s.
  apply Forall_cons; [apply gamma_ok|].
  apply Forall_cons; [pt_mono KP MET NN [1; 1; 1; 1; 1] (Zv 0 1 0)|]. (* F *)
  apply Forall_cons; [pt_mono KP MET NN [1; (-1); 1; (-1); 1] (Zv 0 0 1)|]. (* F1 *)
  apply Forall_cons; [pt_mono KP MET NN [1; (-1); 1; (-1); (-1)] (Zv 0 (-1) 0)|]. (* F2 *)
  apply Forall_cons; [pt_mono KP MET NN [1; 1; 1; (-1); 1] (Zv 0 0 1)|]. (* H *)
  apply Forall_cons; [pt_mono KP MET NN [1; (-1); 1; 1; 1] (Zv 1 0 0)|]. (* H1 *)
  apply Forall_cons; [pt_mono KP MET NN [1; (-1); (-1); (-1); (-1)] (Zv (-1) 0 0)|]. (* H2 *)
  apply Forall_cons; [pt_mono KP MET NN [1; (-1); 1; (-1); 0] (Zv 0 0 1)|]. (* I *)
  apply Forall_cons; [pt_mono KP MET NN [1; 0; 1; 0; 1] (Zv 1 0 1)|]. (* M *)
  apply Forall_cons; [pt_mono KP MET NN [0; 0; 1; 1; 1] (Zv 1 0 0)|]. (* N *)
  apply Forall_cons; [pt_mono KP MET NN [0; (-1); 0; (-1); (-1)] (Zv 0 (-1) 0)|]. (* N1 *)
  apply Forall_cons; [pt_mono KP MET NN [0; (-1); 1; 0; 0] (Zv 1 (-1) 0)|]. (* X *)
  apply Forall_cons; [pt_mono KP MET NN [0; 1; 1; 1; 1] (Zv 0 1 0)|]. (* Y *)
  apply Forall_cons; [pt_mono KP MET NN [0; (-1); 1; 1; 1] (Zv 1 0 0)|]. (* Y1 *)
  apply Forall_cons; [pt_mono KP MET NN [0; (-1); (-1); (-1); (-1)] (Zv (-1) 0 0)|]. (* Y2 *)
  apply Forall_cons; [pt_mono KP MET NN [0; (-1); 1; (-1); (-1)] (Zv 0 (-1) 0)|]. (* Y3 *)
  apply Forall_cons; [pt_mono KP MET NN [1; 0; 0; (-1); 0] (Zv 0 0 1)|]. (* Z *)
  apply Forall_nil.
Qed.
Definition terms_S19mC (A B C E : R) : terms := [(Zv 0 0 1, B + C - A + 2 * E); (Zv 0 1 (-1), A - B - E); (Zv 0 1 0, A + B + E); (Zv 1 0 (-1), A - B - E); (Zv 1 0 0, A + B + E); (Zv 1 1 (-1), B - A)].
Lemma zone_S19mC r K a b c alpha pts : 0 < K -> 0 < a -> 0 < b -> 0 < c -> sin (alpha * TORADIANS) <> 0 -> nonneg (terms_S19mC (/ (a * a)) (/ (b * b * (sin (alpha * TORADIANS) * sin (alpha * TORADIANS)))) (/ (c * c * (sin (alpha * TORADIANS) * sin (alpha * TORADIANS)))) (- cos (alpha * TORADIANS) / (b * c * (sin (alpha * TORADIANS) * sin (alpha * TORADIANS))))) -> metric r K (terms_S19mC (/ (a * a)) (/ (b * b * (sin (alpha * TORADIANS) * sin (alpha * TORADIANS)))) (/ (c * c * (sin (alpha * TORADIANS) * sin (alpha * TORADIANS)))) (- cos (alpha * TORADIANS) / (b * c * (sin (alpha * TORADIANS) * sin (alpha * TORADIANS))))) -> sc_table_19 a b c alpha = Ok pts -> Forall (zone_ok r) pts.
Proof.
  intros KP Ha Hb Hc HS NN MET H. zone_start H sc_table_19. unfold terms_S19mC in *. pyth (alpha * TORADIANS) q s.
  apply Forall_cons; [apply gamma_ok|].
  apply Forall_cons; [pt_mono KP MET NN [1; 1; 1; 1; 1; 1] (Zv 0 1 0)|]. (* F *)
  apply Forall_cons; [pt_mono KP MET NN [1; (-1); 1; (-1); 1; 1] (Zv 0 1 1)|]. (* F1 *)
  apply Forall_cons; [pt_mono KP MET NN [1; (-1); (-1); 1; 1; (-1)] (Zv 0 (-1) 0)|]. (* F2 *)
  apply Forall_cons; [pt_mono KP MET NN [1; (-1); 1; (-1); 1; (-1)] (Zv 0 0 1)|]. (* H *)
  apply Forall_cons; [pt_mono KP MET NN [1; (-1); (-1); 1; 1; 1] (Zv 1 0 0)|]. (* H1 *)
  apply Forall_cons; [pt_mono KP MET NN [1; (-1); (-1); (-1); (-1); (-1)] (Zv (-1) 0 0)|]. (* H2 *)
  apply Forall_cons; [pt_mono KP MET NN [1; (-1); 1; 1; 1; 1] (Zv 1 0 0)|]. (* I *)
  apply Forall_cons; [pt_mono KP MET NN [1; (-1); (-1); (-1); 1; (-1)] (Zv 0 (-1) 0)|]. (* I1 *)
  apply Forall_cons; [pt_mono KP MET NN [1; 0; 1; 0; 1; 1] (Zv 1 1 1)|]. (* L *)
  apply Forall_cons; [pt_mono KP MET NN [1; (-1); 0; 0; 1; 0] (Zv 1 0 1)|]. (* M *)
  apply Forall_cons; [pt_mono KP MET NN [0; 0; 0; 1; 1; 1] (Zv 1 0 0)|]. (* N *)
  apply Forall_cons; [pt_mono KP MET NN [0; (-1); (-1); 0; 0; (-1)] (Zv 0 (-1) 0)|]. (* N1 *)
  apply Forall_cons; [pt_mono KP MET NN [0; (-1); (-1); 1; 1; 0] (Zv 1 (-1) 0)|]. (* X *)
  apply Forall_cons; [pt_mono KP MET NN [0; 1; 1; 1; 1; 1] (Zv 0 1 0)|]. (* Y *)
  apply Forall_cons; [pt_mono KP MET NN [0; (-1); (-1); 1; 1; 1] (Zv 1 0 0)|]. (* Y1 *)
  apply Forall_cons; [pt_mono KP MET NN [0; (-1); (-1); (-1); (-1); (-1)] (Zv (-1) 0 0)|]. (* Y2 *)
  apply Forall_cons; [pt_mono KP MET NN [0; (-1); (-1); 1; 1; (-1)] (Zv 0 (-1) 0)|]. (* Y3 *)
  apply Forall_cons; [pt_mono KP MET NN [1; (-1); 0; (-1); 0; (-1)] (Zv 0 0 1)|]. (* Z *)
  apply Forall_nil.
Qed.
