(* F_ZoneTables.v : certificates (see F_Zone.v) for every point of every table of high-symmetry points.
   The names say: convention (H: HPKOT, S: SC), number of the table, lattice type. *)
From Verif Require Import Base M_Strings M_Dict M_Numerical M_Geometry M_Cell T_Points F_Geometry S_Zone F_Zone.
Open Scope string_scope.
Open Scope list_scope.
Open Scope R_scope.

Ltac zone_start H tbl :=
  unfold tbl in H; cbn [String.eqb Ascii.eqb Bool.eqb bind] in H; cbv zeta in H;
  repeat match type of H with context [Reqb ?x 0] => destruct (Reqb_spec x 0); [discriminate H|] end; cbn [bind] in H;
  injection H as <-.
Ltac cert_b := cbn [bounded]; repeat match goal with
  | |- _ /\ _ => split
  | |- True => exact I
  | |- _ <= _ => lra
  | |- IZR ?z * (IZR ?z - _) = 0 => let v := eval vm_compute in z in change z with v; lra
  end.
Ltac cert_u := cbn [form tform]; unfold lin; cbn [vx vy vz zx zy zz]; unfold sq.
Ltac nz := repeat match goal with |- _ /\ _ => split end; try assumption; try (apply Rgt_not_eq; assumption); try (intros ?; lra).
Ltac pt_with tac KP MET NN t n := apply (point_ok _ _ _ t n _ _ KP MET NN); [cert_b|cert_u; tac|cert_u; tac|cert_u; tac|discriminate].
Ltac pt_const KP MET NN t n := pt_with ltac:(lra) KP MET NN t n.
Ltac pt_ring KP MET NN t n := pt_with ltac:(first [lra|field; nz]) KP MET NN t n.
Definition terms_H69cP (A B C : R) : terms := [(Zv 1 0 0, A); (Zv 0 1 0, B); (Zv 0 0 1, C)].
Lemma zone_H69cP r K a pts : 0 < K -> 0 < a -> nonneg (terms_H69cP (/ (a * a)) (/ (a * a)) (/ (a * a))) -> metric r K (terms_H69cP (/ (a * a)) (/ (a * a)) (/ (a * a))) -> hpkot_table_69 = Ok pts -> Forall (zone_ok r) pts.
Proof.
  intros KP Ha NN MET H. zone_start H hpkot_table_69. unfold terms_H69cP in *.
  apply Forall_cons; [apply gamma_ok|].
  apply Forall_cons; [pt_const KP MET NN [1; 1; 1] (Zv 0 0 1)|]. (* R *)
  apply Forall_cons; [pt_const KP MET NN [1; 1; 0] (Zv 0 1 0)|]. (* M *)
  apply Forall_cons; [pt_const KP MET NN [0; 1; 0] (Zv 0 1 0)|]. (* X *)
  apply Forall_cons; [pt_const KP MET NN [1; 0; 0] (Zv 1 0 0)|]. (* X1 *)
  apply Forall_nil.
Qed.
Definition terms_H70cF (A B C : R) : terms := [(Zv 1 (-1) 0, A + B - C); (Zv 1 0 (-1), A + C - B); (Zv 0 1 (-1), B + C - A); (Zv 1 0 0, B + C - A); (Zv 0 1 0, A + C - B); (Zv 0 0 1, A + B - C)].
Lemma zone_H70cF r K a pts : 0 < K -> 0 < a -> nonneg (terms_H70cF (/ (a * a)) (/ (a * a)) (/ (a * a))) -> metric r K (terms_H70cF (/ (a * a)) (/ (a * a)) (/ (a * a))) -> hpkot_table_70 = Ok pts -> Forall (zone_ok r) pts.
Proof.
  intros KP Ha NN MET H. zone_start H hpkot_table_70. unfold terms_H70cF in *.
  apply Forall_cons; [apply gamma_ok|].
  apply Forall_cons; [pt_const KP MET NN [1; 0; (-1); 1; 0; 1] (Zv 1 0 1)|]. (* X *)
  apply Forall_cons; [pt_const KP MET NN [0; 0; 0; 1; 1; 1] (Zv 1 1 1)|]. (* L *)
  apply Forall_cons; [pt_const KP MET NN [1; (-1); (-1); 1; 1; 1] (Zv 0 0 1)|]. (* W *)
  apply Forall_cons; [pt_const KP MET NN [1; 1; (-1); 1; 1; 1] (Zv 1 0 0)|]. (* W2 *)
  apply Forall_cons; [pt_const KP MET NN [0; (-1); (-1); 1; 1; 1] (Zv 0 0 1)|]. (* K *)
  apply Forall_cons; [pt_const KP MET NN [1; 0; (-1); 1; 1; 1] (Zv 1 0 1)|]. (* U *)
  apply Forall_nil.
Qed.
Definition terms_H71cI (C : R) : terms := [(Zv 1 0 0, C); (Zv 0 1 0, C); (Zv 0 0 1, C); (Zv 1 1 1, C)].
Lemma zone_H71cI r K a pts : 0 < K -> 0 < a -> nonneg (terms_H71cI (/ (a * a))) -> metric r K (terms_H71cI (/ (a * a))) -> hpkot_table_71 = Ok pts -> Forall (zone_ok r) pts.
Proof.
  intros KP Ha NN MET H. zone_start H hpkot_table_71. unfold terms_H71cI in *.
  apply Forall_cons; [apply gamma_ok|].
  apply Forall_cons; [pt_const KP MET NN [1; (-1); 1; 1] (Zv 0 0 1)|]. (* H *)
  apply Forall_cons; [pt_const KP MET NN [1; 1; 1; 1] (Zv 0 0 1)|]. (* P *)
  apply Forall_cons; [pt_const KP MET NN [0; 0; 1; 1] (Zv 0 0 1)|]. (* N *)
  apply Forall_nil.
Qed.
Lemma zone_H72tP r K a c pts : 0 < K -> 0 < a -> 0 < c -> nonneg (terms_H69cP (/ (a * a)) (/ (a * a)) (/ (c * c))) -> metric r K (terms_H69cP (/ (a * a)) (/ (a * a)) (/ (c * c))) -> hpkot_table_72 = Ok pts -> Forall (zone_ok r) pts.
Proof.
  intros KP Ha Hc NN MET H. zone_start H hpkot_table_72. unfold terms_H69cP in *.
  apply Forall_cons; [apply gamma_ok|].
  apply Forall_cons; [pt_ring KP MET NN [0; 0; 1] (Zv 0 0 1)|]. (* Z *)
  apply Forall_cons; [pt_ring KP MET NN [1; 1; 0] (Zv 0 1 0)|]. (* M *)
  apply Forall_cons; [pt_ring KP MET NN [1; 1; 1] (Zv 0 0 1)|]. (* A *)
  apply Forall_cons; [pt_ring KP MET NN [0; 1; 1] (Zv 0 0 1)|]. (* R *)
  apply Forall_cons; [pt_ring KP MET NN [0; 1; 0] (Zv 0 1 0)|]. (* X *)
  apply Forall_nil.
Qed.
Definition terms_H73tI (A C : R) : terms := [(Zv 1 0 0, A); (Zv 0 1 0, A); (Zv 0 0 1, A); (Zv 1 1 1, A); (Zv 1 1 0, C - A)].
Lemma zone_H73tI r K a c pts : 0 < K -> 0 < a -> 0 < c -> nonneg (terms_H73tI (/ (a * a)) (/ (c * c))) -> metric r K (terms_H73tI (/ (a * a)) (/ (c * c))) -> hpkot_table_73 a c = Ok pts -> Forall (zone_ok r) pts.
Proof.
  intros KP Ha Hc NN MET H. zone_start H hpkot_table_73. unfold terms_H73tI in *.
  apply Forall_cons; [apply gamma_ok|].
  apply Forall_cons; [pt_ring KP MET NN [(-1); 1; 1; 1; 0] (Zv 0 0 1)|]. (* M *)
  apply Forall_cons; [pt_ring KP MET NN [0; 0; 1; 1; 0] (Zv 0 0 1)|]. (* X *)
  apply Forall_cons; [pt_ring KP MET NN [1; 1; 1; 1; 1] (Zv 0 0 1)|]. (* P *)
  apply Forall_cons; [pt_ring KP MET NN [1; 1; (-1); 1; 1] (Zv 0 1 0)|]. (* Z *)
  apply Forall_cons; [pt_ring KP MET NN [(-1); 1; 1; 1; 1] (Zv 0 0 1)|]. (* Z0 *)
  apply Forall_cons; [pt_ring KP MET NN [0; 1; 0; 1; 1] (Zv 0 1 0)|]. (* N *)
  apply Forall_nil.
Qed.
Definition terms_H74tI (A B C : R) : terms := [(Zv 1 0 0, C); (Zv 0 1 0, C); (Zv 0 0 1, C); (Zv 1 1 1, C); (Zv 0 1 1, A - C); (Zv 1 0 1, B - C)].
Lemma zone_H74tI r K a c pts : 0 < K -> 0 < a -> 0 < c -> nonneg (terms_H74tI (/ (a * a)) (/ (a * a)) (/ (c * c))) -> metric r K (terms_H74tI (/ (a * a)) (/ (a * a)) (/ (c * c))) -> hpkot_table_74 a c = Ok pts -> Forall (zone_ok r) pts.
Proof.
  intros KP Ha Hc NN MET H. zone_start H hpkot_table_74. unfold terms_H74tI in *.
  apply Forall_cons; [apply gamma_ok|].
  apply Forall_cons; [pt_ring KP MET NN [1; 1; (-1); 1; 0; 0] (Zv 1 1 (-1))|]. (* M *)
  apply Forall_cons; [pt_ring KP MET NN [0; 0; 1; 1; 1; 1] (Zv 0 0 1)|]. (* X *)
  apply Forall_cons; [pt_ring KP MET NN [1; 1; 1; 1; 1; 1] (Zv 0 0 1)|]. (* P *)
  apply Forall_cons; [pt_ring KP MET NN [0; 1; 0; 1; 1; 0] (Zv 0 1 0)|]. (* N *)
  apply Forall_cons; [pt_ring KP MET NN [(-1); 1; 1; 1; 1; 0] (Zv 0 1 0)|]. (* S0 *)
  apply Forall_cons; [pt_ring KP MET NN [1; 1; (-1); 1; 1; 0] (Zv 0 1 0)|]. (* S *)
  apply Forall_cons; [pt_ring KP MET NN [(-1); 1; 1; 1; 1; 1] (Zv 0 0 1)|]. (* R *)
  apply Forall_cons; [pt_ring KP MET NN [1; 1; (-1); 1; 1; 1] (Zv 0 1 0)|]. (* G *)
  apply Forall_nil.
Qed.
Lemma zone_H75oP r K a b c pts : 0 < K -> 0 < a -> 0 < b -> 0 < c -> nonneg (terms_H69cP (/ (a * a)) (/ (b * b)) (/ (c * c))) -> metric r K (terms_H69cP (/ (a * a)) (/ (b * b)) (/ (c * c))) -> hpkot_table_75 = Ok pts -> Forall (zone_ok r) pts.
Proof.
  intros KP Ha Hb Hc NN MET H. zone_start H hpkot_table_75. unfold terms_H69cP in *.
  apply Forall_cons; [apply gamma_ok|].
  apply Forall_cons; [pt_ring KP MET NN [1; 0; 0] (Zv 1 0 0)|]. (* X *)
  apply Forall_cons; [pt_ring KP MET NN [0; 0; 1] (Zv 0 0 1)|]. (* Z *)
  apply Forall_cons; [pt_ring KP MET NN [1; 0; 1] (Zv 0 0 1)|]. (* U *)
  apply Forall_cons; [pt_ring KP MET NN [0; 1; 0] (Zv 0 1 0)|]. (* Y *)
  apply Forall_cons; [pt_ring KP MET NN [1; 1; 0] (Zv 0 1 0)|]. (* S *)
  apply Forall_cons; [pt_ring KP MET NN [0; 1; 1] (Zv 0 0 1)|]. (* T *)
  apply Forall_cons; [pt_ring KP MET NN [1; 1; 1] (Zv 0 0 1)|]. (* R *)
  apply Forall_nil.
Qed.
Definition terms_H76oF (A B C : R) : terms := [(Zv (-1) 1 1, A - B - C); (Zv 0 0 1, 2 * B); (Zv (-1) 1 0, 2 * B); (Zv 0 1 0, 2 * C); (Zv (-1) 0 1, 2 * C)].
Lemma zone_H76oF r K a b c pts : 0 < K -> 0 < a -> 0 < b -> 0 < c -> nonneg (terms_H76oF (/ (a * a)) (/ (b * b)) (/ (c * c))) -> metric r K (terms_H76oF (/ (a * a)) (/ (b * b)) (/ (c * c))) -> hpkot_table_76 a b c = Ok pts -> Forall (zone_ok r) pts.
Proof.
  intros KP Ha Hb Hc NN MET H. zone_start H hpkot_table_76. unfold terms_H76oF in *.
  apply Forall_cons; [apply gamma_ok|].
  apply Forall_cons; [pt_ring KP MET NN [0; 1; (-1); 1; (-1)] (Zv 1 0 1)|]. (* T *)
  apply Forall_cons; [pt_ring KP MET NN [0; 0; 0; 1; (-1)] (Zv 1 1 0)|]. (* Z *)
  apply Forall_cons; [pt_ring KP MET NN [0; 1; (-1); 0; 0] (Zv 1 0 1)|]. (* Y *)
  apply Forall_cons; [pt_ring KP MET NN [1; 1; 1; 1; 1] (Zv (-1) 0 0)|]. (* SIGMA0 *)
  apply Forall_cons; [pt_ring KP MET NN [1; 1; (-1); 1; (-1)] (Zv 1 0 1)|]. (* U0 *)
  apply Forall_cons; [pt_ring KP MET NN [1; 1; 1; 1; (-1)] (Zv 0 1 0)|]. (* A0 *)
  apply Forall_cons; [pt_ring KP MET NN [1; 1; (-1); 1; 1] (Zv 0 0 1)|]. (* C0 *)
  apply Forall_cons; [pt_ring KP MET NN [1; 1; 0; 1; 0] (Zv 1 1 1)|]. (* L *)
  apply Forall_nil.
Qed.
Definition terms_H77oF (A B C : R) : terms := [(Zv 1 1 (-1), C - A - B); (Zv 0 1 0, 2 * A); (Zv 1 0 (-1), 2 * A); (Zv 1 0 0, 2 * B); (Zv 0 1 (-1), 2 * B)].
Lemma zone_H77oF r K a b c pts : 0 < K -> 0 < a -> 0 < b -> 0 < c -> nonneg (terms_H77oF (/ (a * a)) (/ (b * b)) (/ (c * c))) -> metric r K (terms_H77oF (/ (a * a)) (/ (b * b)) (/ (c * c))) -> hpkot_table_77 a b c = Ok pts -> Forall (zone_ok r) pts.
Proof.
  intros KP Ha Hb Hc NN MET H. zone_start H hpkot_table_77. unfold terms_H77oF in *.
  apply Forall_cons; [apply gamma_ok|].
  apply Forall_cons; [pt_ring KP MET NN [0; 1; (-1); 0; 0] (Zv 0 1 1)|]. (* T *)
  apply Forall_cons; [pt_ring KP MET NN [0; 1; (-1); 1; (-1)] (Zv 0 1 1)|]. (* Z *)
  apply Forall_cons; [pt_ring KP MET NN [0; 0; 0; 1; (-1)] (Zv 1 0 1)|]. (* Y *)
  apply Forall_cons; [pt_ring KP MET NN [1; 1; 1; 1; 1] (Zv 0 0 (-1))|]. (* LAMBDA0 *)
  apply Forall_cons; [pt_ring KP MET NN [1; 1; (-1); 1; (-1)] (Zv 0 1 1)|]. (* Q0 *)
  apply Forall_cons; [pt_ring KP MET NN [1; 1; (-1); 1; 1] (Zv 0 1 0)|]. (* G0 *)
  apply Forall_cons; [pt_ring KP MET NN [1; 1; 1; 1; (-1)] (Zv 1 0 0)|]. (* H0 *)
  apply Forall_cons; [pt_ring KP MET NN [1; 1; 0; 1; 0] (Zv 1 1 1)|]. (* L *)
  apply Forall_nil.
Qed.
Lemma zone_H78oF r K a b c pts : 0 < K -> 0 < a -> 0 < b -> 0 < c -> nonneg (terms_H70cF (/ (a * a)) (/ (b * b)) (/ (c * c))) -> metric r K (terms_H70cF (/ (a * a)) (/ (b * b)) (/ (c * c))) -> hpkot_table_78 a b c = Ok pts -> Forall (zone_ok r) pts.
Proof.
  intros KP Ha Hb Hc NN MET H. zone_start H hpkot_table_78. unfold terms_H70cF in *.
  apply Forall_cons; [apply gamma_ok|].
  apply Forall_cons; [pt_ring KP MET NN [(-1); (-1); 0; 0; 1; 1] (Zv 0 1 1)|]. (* T *)
  apply Forall_cons; [pt_ring KP MET NN [0; 1; 1; 1; 1; 0] (Zv 1 1 0)|]. (* Z *)
  apply Forall_cons; [pt_ring KP MET NN [1; 0; (-1); 1; 0; 1] (Zv 1 0 1)|]. (* Y *)
  apply Forall_cons; [pt_ring KP MET NN [(-1); 1; 1; 1; 1; 1] (Zv 0 1 0)|]. (* A0 *)
  apply Forall_cons; [pt_ring KP MET NN [1; (-1); (-1); 1; 1; 1] (Zv 0 0 1)|]. (* C0 *)
  apply Forall_cons; [pt_ring KP MET NN [1; 1; 1; 1; 1; 1] (Zv 1 0 0)|]. (* B0 *)
  apply Forall_cons; [pt_ring KP MET NN [(-1); (-1); (-1); 1; 1; 1] (Zv 0 0 1)|]. (* D0 *)
  apply Forall_cons; [pt_ring KP MET NN [(-1); (-1); 1; 1; 1; 1] (Zv 0 1 0)|]. (* G0 *)
  apply Forall_cons; [pt_ring KP MET NN [1; 1; (-1); 1; 1; 1] (Zv 1 0 0)|]. (* H0 *)
  apply Forall_cons; [pt_ring KP MET NN [0; 0; 0; 1; 1; 1] (Zv 1 1 1)|]. (* L *)
  apply Forall_nil.
Qed.
Lemma zone_H79oI r K a b c pts : 0 < K -> 0 < a -> 0 < b -> 0 < c -> nonneg (terms_H74tI (/ (a * a)) (/ (b * b)) (/ (c * c))) -> metric r K (terms_H74tI (/ (a * a)) (/ (b * b)) (/ (c * c))) -> hpkot_table_79 a b c = Ok pts -> Forall (zone_ok r) pts.
Proof.
  intros KP Ha Hb Hc NN MET H. zone_start H hpkot_table_79. unfold terms_H74tI in *.
  apply Forall_cons; [apply gamma_ok|].
  apply Forall_cons; [pt_ring KP MET NN [1; 1; (-1); 1; 0; 0] (Zv 1 1 (-1))|]. (* X *)
  apply Forall_cons; [pt_ring KP MET NN [1; 0; 0; 1; 0; 1] (Zv 1 0 0)|]. (* S *)
  apply Forall_cons; [pt_ring KP MET NN [0; 1; 0; 1; 1; 0] (Zv 0 1 0)|]. (* R *)
  apply Forall_cons; [pt_ring KP MET NN [0; 0; 1; 1; 1; 1] (Zv 0 0 1)|]. (* T *)
  apply Forall_cons; [pt_ring KP MET NN [1; 1; 1; 1; 1; 1] (Zv 0 0 1)|]. (* W *)
  apply Forall_cons; [pt_ring KP MET NN [(-1); 1; 1; 1; 1; 0] (Zv 0 1 0)|]. (* SIGMA0 *)
  apply Forall_cons; [pt_ring KP MET NN [1; 1; (-1); 1; 1; 0] (Zv 0 1 0)|]. (* F2 *)
  apply Forall_cons; [pt_ring KP MET NN [1; (-1); 1; 1; 0; 1] (Zv 1 0 0)|]. (* Y0 *)
  apply Forall_cons; [pt_ring KP MET NN [1; 1; (-1); 1; 0; 1] (Zv 1 0 0)|]. (* U0 *)
  apply Forall_cons; [pt_ring KP MET NN [(-1); 1; 1; 1; 1; 1] (Zv 0 0 1)|]. (* L0 *)
  apply Forall_cons; [pt_ring KP MET NN [1; (-1); 1; 1; 1; 1] (Zv 0 0 1)|]. (* M0 *)
  apply Forall_cons; [pt_ring KP MET NN [1; 1; (-1); 1; 1; 1] (Zv 0 1 0)|]. (* J0 *)
  apply Forall_nil.
Qed.
Definition terms_H80oI (A B C : R) : terms := [(Zv 1 0 0, A); (Zv 0 1 0, A); (Zv 0 0 1, A); (Zv 1 1 1, A); (Zv 1 0 1, B - A); (Zv 1 1 0, C - A)].
Lemma zone_H80oI r K a b c pts : 0 < K -> 0 < a -> 0 < b -> 0 < c -> nonneg (terms_H80oI (/ (a * a)) (/ (b * b)) (/ (c * c))) -> metric r K (terms_H80oI (/ (a * a)) (/ (b * b)) (/ (c * c))) -> hpkot_table_80 a b c = Ok pts -> Forall (zone_ok r) pts.
Proof.
  intros KP Ha Hb Hc NN MET H. zone_start H hpkot_table_80. unfold terms_H80oI in *.
  apply Forall_cons; [apply gamma_ok|].
  apply Forall_cons; [pt_ring KP MET NN [(-1); 1; 1; 1; 0; 0] (Zv (-1) 1 1)|]. (* X *)
  apply Forall_cons; [pt_ring KP MET NN [1; 0; 0; 1; 1; 1] (Zv 1 0 0)|]. (* S *)
  apply Forall_cons; [pt_ring KP MET NN [0; 1; 0; 1; 0; 1] (Zv 0 1 0)|]. (* R *)
  apply Forall_cons; [pt_ring KP MET NN [0; 0; 1; 1; 1; 0] (Zv 0 0 1)|]. (* T *)
  apply Forall_cons; [pt_ring KP MET NN [1; 1; 1; 1; 1; 1] (Zv 0 0 1)|]. (* W *)
  apply Forall_cons; [pt_ring KP MET NN [1; (-1); 1; 1; 1; 0] (Zv 0 0 1)|]. (* Y0 *)
  apply Forall_cons; [pt_ring KP MET NN [(-1); 1; 1; 1; 1; 0] (Zv 0 0 1)|]. (* U2 *)
  apply Forall_cons; [pt_ring KP MET NN [1; 1; (-1); 1; 0; 1] (Zv 0 1 0)|]. (* LAMBDA0 *)
  apply Forall_cons; [pt_ring KP MET NN [(-1); 1; 1; 1; 0; 1] (Zv 0 1 0)|]. (* G2 *)
  apply Forall_cons; [pt_ring KP MET NN [1; (-1); 1; 1; 1; 1] (Zv 0 0 1)|]. (* K *)
  apply Forall_cons; [pt_ring KP MET NN [1; 1; (-1); 1; 1; 1] (Zv 0 1 0)|]. (* K2 *)
  apply Forall_cons; [pt_ring KP MET NN [(-1); 1; 1; 1; 1; 1] (Zv 0 0 1)|]. (* K4 *)
  apply Forall_nil.
Qed.
Definition terms_H81oI (A B C : R) : terms := [(Zv 1 0 0, B); (Zv 0 1 0, B); (Zv 0 0 1, B); (Zv 1 1 1, B); (Zv 0 1 1, A - B); (Zv 1 1 0, C - B)].
Lemma zone_H81oI r K a b c pts : 0 < K -> 0 < a -> 0 < b -> 0 < c -> nonneg (terms_H81oI (/ (a * a)) (/ (b * b)) (/ (c * c))) -> metric r K (terms_H81oI (/ (a * a)) (/ (b * b)) (/ (c * c))) -> hpkot_table_81 a b c = Ok pts -> Forall (zone_ok r) pts.
Proof.
  intros KP Ha Hb Hc NN MET H. zone_start H hpkot_table_81. unfold terms_H81oI in *.
  apply Forall_cons; [apply gamma_ok|].
  apply Forall_cons; [pt_ring KP MET NN [1; (-1); 1; 1; 0; 0] (Zv 1 (-1) 1)|]. (* X *)
  apply Forall_cons; [pt_ring KP MET NN [1; 0; 0; 1; 0; 1] (Zv 1 0 0)|]. (* S *)
  apply Forall_cons; [pt_ring KP MET NN [0; 1; 0; 1; 1; 1] (Zv 0 1 0)|]. (* R *)
  apply Forall_cons; [pt_ring KP MET NN [0; 0; 1; 1; 1; 0] (Zv 0 0 1)|]. (* T *)
  apply Forall_cons; [pt_ring KP MET NN [1; 1; 1; 1; 1; 1] (Zv 0 0 1)|]. (* W *)
  apply Forall_cons; [pt_ring KP MET NN [(-1); 1; 1; 1; 1; 0] (Zv 0 0 1)|]. (* SIGMA0 *)
  apply Forall_cons; [pt_ring KP MET NN [1; (-1); 1; 1; 1; 0] (Zv 0 0 1)|]. (* F0 *)
  apply Forall_cons; [pt_ring KP MET NN [1; 1; (-1); 1; 0; 1] (Zv 1 0 0)|]. (* LAMBDA0 *)
  apply Forall_cons; [pt_ring KP MET NN [1; (-1); 1; 1; 0; 1] (Zv 1 0 0)|]. (* G0 *)
  apply Forall_cons; [pt_ring KP MET NN [1; 1; (-1); 1; 1; 1] (Zv 0 1 0)|]. (* V0 *)
  apply Forall_cons; [pt_ring KP MET NN [(-1); 1; 1; 1; 1; 1] (Zv 0 0 1)|]. (* H0 *)
  apply Forall_cons; [pt_ring KP MET NN [1; (-1); 1; 1; 1; 1] (Zv 0 0 1)|]. (* H2 *)
  apply Forall_nil.
Qed.
Definition terms_H82oC (A B C : R) : terms := [(Zv 0 1 0, 2 * B); (Zv 1 0 0, 2 * B); (Zv 1 1 0, A - B); (Zv 0 0 1, C)].
Lemma zone_H82oC r K a b c pts : 0 < K -> 0 < a -> 0 < b -> 0 < c -> nonneg (terms_H82oC (/ (a * a)) (/ (b * b)) (/ (c * c))) -> metric r K (terms_H82oC (/ (a * a)) (/ (b * b)) (/ (c * c))) -> hpkot_table_82 a b c "oC" = Ok pts -> Forall (zone_ok r) pts.
Proof.
  intros KP Ha Hb Hc NN MET H. zone_start H hpkot_table_82. unfold terms_H82oC in *.
  apply Forall_cons; [apply gamma_ok|].
  apply Forall_cons; [pt_ring KP MET NN [1; (-1); 0; 0] (Zv (-1) 1 0)|]. (* Y *)
  apply Forall_cons; [pt_ring KP MET NN [1; (-1); 0; 1] (Zv 0 0 1)|]. (* T *)
  apply Forall_cons; [pt_ring KP MET NN [0; 0; 0; 1] (Zv 0 0 1)|]. (* Z *)
  apply Forall_cons; [pt_ring KP MET NN [1; 0; 1; 0] (Zv 0 1 0)|]. (* S *)
  apply Forall_cons; [pt_ring KP MET NN [1; 0; 1; 1] (Zv 0 0 1)|]. (* R *)
  apply Forall_cons; [pt_ring KP MET NN [1; 1; 1; 0] (Zv 0 1 0)|]. (* SIGMA0 *)
  apply Forall_cons; [pt_ring KP MET NN [1; (-1); 1; 0] (Zv 0 1 0)|]. (* C0 *)
  apply Forall_cons; [pt_ring KP MET NN [1; 1; 1; 1] (Zv 0 0 1)|]. (* A0 *)
  apply Forall_cons; [pt_ring KP MET NN [1; (-1); 1; 1] (Zv 0 0 1)|]. (* E0 *)
  apply Forall_nil.
Qed.
Definition terms_H83oC (A B C : R) : terms := [(Zv 0 1 0, 2 * A); (Zv 1 0 0, 2 * A); (Zv (-1) 1 0, B - A); (Zv 0 0 1, C)].
Lemma zone_H83oC r K a b c pts : 0 < K -> 0 < a -> 0 < b -> 0 < c -> nonneg (terms_H83oC (/ (a * a)) (/ (b * b)) (/ (c * c))) -> metric r K (terms_H83oC (/ (a * a)) (/ (b * b)) (/ (c * c))) -> hpkot_table_83 a b c "oC" = Ok pts -> Forall (zone_ok r) pts.
Proof.
  intros KP Ha Hb Hc NN MET H. zone_start H hpkot_table_83. unfold terms_H83oC in *.
  apply Forall_cons; [apply gamma_ok|].
  apply Forall_cons; [pt_ring KP MET NN [1; 1; 0; 0] (Zv 1 1 0)|]. (* Y *)
  apply Forall_cons; [pt_ring KP MET NN [1; 1; 0; 1] (Zv 0 0 1)|]. (* T *)
  apply Forall_cons; [pt_ring KP MET NN [1; 1; 0; (-1)] (Zv 0 0 (-1))|]. (* T2 *)
  apply Forall_cons; [pt_ring KP MET NN [0; 0; 0; 1] (Zv 0 0 1)|]. (* Z *)
  apply Forall_cons; [pt_ring KP MET NN [0; 0; 0; (-1)] (Zv 0 0 (-1))|]. (* Z2 *)
  apply Forall_cons; [pt_ring KP MET NN [1; 0; 1; 0] (Zv 0 1 0)|]. (* S *)
  apply Forall_cons; [pt_ring KP MET NN [1; 0; 1; 1] (Zv 0 0 1)|]. (* R *)
  apply Forall_cons; [pt_ring KP MET NN [1; 0; 1; (-1)] (Zv 0 0 (-1))|]. (* R2 *)
  apply Forall_cons; [pt_ring KP MET NN [1; (-1); 1; 0] (Zv (-1) 0 0)|]. (* DELTA0 *)
  apply Forall_cons; [pt_ring KP MET NN [1; 1; 1; 0] (Zv 0 1 0)|]. (* F0 *)
  apply Forall_cons; [pt_ring KP MET NN [1; (-1); 1; 1] (Zv (-1) 0 0)|]. (* B0 *)
  apply Forall_cons; [pt_ring KP MET NN [1; (-1); 1; (-1)] (Zv (-1) 0 0)|]. (* B2 *)
  apply Forall_cons; [pt_ring KP MET NN [1; 1; 1; 1] (Zv 0 0 1)|]. (* G0 *)
  apply Forall_cons; [pt_ring KP MET NN [1; 1; 1; (-1)] (Zv 0 0 (-1))|]. (* G2 *)
  apply Forall_nil.
Qed.
Definition terms_H82oA (A B C : R) : terms := [(Zv 0 1 0, 2 * C); (Zv 1 0 0, 2 * C); (Zv 1 1 0, B - C); (Zv 0 0 1, A)].
Lemma zone_H82oA r K a b c pts : 0 < K -> 0 < a -> 0 < b -> 0 < c -> nonneg (terms_H82oA (/ (a * a)) (/ (b * b)) (/ (c * c))) -> metric r K (terms_H82oA (/ (a * a)) (/ (b * b)) (/ (c * c))) -> hpkot_table_82 a b c "oA" = Ok pts -> Forall (zone_ok r) pts.
Proof.
  intros KP Ha Hb Hc NN MET H. zone_start H hpkot_table_82. unfold terms_H82oA in *.
  apply Forall_cons; [apply gamma_ok|].
  apply Forall_cons; [pt_ring KP MET NN [1; (-1); 0; 0] (Zv (-1) 1 0)|]. (* Y *)
  apply Forall_cons; [pt_ring KP MET NN [1; (-1); 0; 1] (Zv 0 0 1)|]. (* T *)
  apply Forall_cons; [pt_ring KP MET NN [0; 0; 0; 1] (Zv 0 0 1)|]. (* Z *)
  apply Forall_cons; [pt_ring KP MET NN [1; 0; 1; 0] (Zv 0 1 0)|]. (* S *)
  apply Forall_cons; [pt_ring KP MET NN [1; 0; 1; 1] (Zv 0 0 1)|]. (* R *)
  apply Forall_cons; [pt_ring KP MET NN [1; 1; 1; 0] (Zv 0 1 0)|]. (* SIGMA0 *)
  apply Forall_cons; [pt_ring KP MET NN [1; (-1); 1; 0] (Zv 0 1 0)|]. (* C0 *)
  apply Forall_cons; [pt_ring KP MET NN [1; 1; 1; 1] (Zv 0 0 1)|]. (* A0 *)
  apply Forall_cons; [pt_ring KP MET NN [1; (-1); 1; 1] (Zv 0 0 1)|]. (* E0 *)
  apply Forall_nil.
Qed.
Definition terms_H83oA (A B C : R) : terms := [(Zv 0 1 0, 2 * B); (Zv 1 0 0, 2 * B); (Zv (-1) 1 0, C - B); (Zv 0 0 1, A)].
Lemma zone_H83oA r K a b c pts : 0 < K -> 0 < a -> 0 < b -> 0 < c -> nonneg (terms_H83oA (/ (a * a)) (/ (b * b)) (/ (c * c))) -> metric r K (terms_H83oA (/ (a * a)) (/ (b * b)) (/ (c * c))) -> hpkot_table_83 a b c "oA" = Ok pts -> Forall (zone_ok r) pts.
Proof.
  intros KP Ha Hb Hc NN MET H. zone_start H hpkot_table_83. unfold terms_H83oA in *.
  apply Forall_cons; [apply gamma_ok|].
  apply Forall_cons; [pt_ring KP MET NN [1; 1; 0; 0] (Zv 1 1 0)|]. (* Y *)
  apply Forall_cons; [pt_ring KP MET NN [1; 1; 0; 1] (Zv 0 0 1)|]. (* T *)
  apply Forall_cons; [pt_ring KP MET NN [1; 1; 0; (-1)] (Zv 0 0 (-1))|]. (* T2 *)
  apply Forall_cons; [pt_ring KP MET NN [0; 0; 0; 1] (Zv 0 0 1)|]. (* Z *)
  apply Forall_cons; [pt_ring KP MET NN [0; 0; 0; (-1)] (Zv 0 0 (-1))|]. (* Z2 *)
  apply Forall_cons; [pt_ring KP MET NN [1; 0; 1; 0] (Zv 0 1 0)|]. (* S *)
  apply Forall_cons; [pt_ring KP MET NN [1; 0; 1; 1] (Zv 0 0 1)|]. (* R *)
  apply Forall_cons; [pt_ring KP MET NN [1; 0; 1; (-1)] (Zv 0 0 (-1))|]. (* R2 *)
  apply Forall_cons; [pt_ring KP MET NN [1; (-1); 1; 0] (Zv (-1) 0 0)|]. (* DELTA0 *)
  apply Forall_cons; [pt_ring KP MET NN [1; 1; 1; 0] (Zv 0 1 0)|]. (* F0 *)
  apply Forall_cons; [pt_ring KP MET NN [1; (-1); 1; 1] (Zv (-1) 0 0)|]. (* B0 *)
  apply Forall_cons; [pt_ring KP MET NN [1; (-1); 1; (-1)] (Zv (-1) 0 0)|]. (* B2 *)
  apply Forall_cons; [pt_ring KP MET NN [1; 1; 1; 1] (Zv 0 0 1)|]. (* G0 *)
  apply Forall_cons; [pt_ring KP MET NN [1; 1; 1; (-1)] (Zv 0 0 (-1))|]. (* G2 *)
  apply Forall_nil.
Qed.
Definition terms_H84hP (A C : R) : terms := [(Zv 1 0 0, A); (Zv 0 1 0, A); (Zv 1 1 0, A); (Zv 0 0 1, C)].
Lemma zone_H84hP r K a c pts : 0 < K -> 0 < a -> 0 < c -> nonneg (terms_H84hP (2 / (3 * (a * a))) (/ (c * c))) -> metric r K (terms_H84hP (2 / (3 * (a * a))) (/ (c * c))) -> hpkot_table_84 = Ok pts -> Forall (zone_ok r) pts.
Proof.
  intros KP Ha Hc NN MET H. zone_start H hpkot_table_84. unfold terms_H84hP in *.
  apply Forall_cons; [apply gamma_ok|].
  apply Forall_cons; [pt_ring KP MET NN [0; 0; 0; 1] (Zv 0 0 1)|]. (* A *)
  apply Forall_cons; [pt_ring KP MET NN [1; 1; 1; 0] (Zv 0 1 0)|]. (* K *)
  apply Forall_cons; [pt_ring KP MET NN [1; 1; 1; 1] (Zv 0 0 1)|]. (* H *)
  apply Forall_cons; [pt_ring KP MET NN [1; 1; 1; (-1)] (Zv 0 0 (-1))|]. (* H2 *)
  apply Forall_cons; [pt_ring KP MET NN [1; 0; 1; 0] (Zv 1 0 0)|]. (* M *)
  apply Forall_cons; [pt_ring KP MET NN [1; 0; 1; 1] (Zv 0 0 1)|]. (* L *)
  apply Forall_nil.
Qed.
Definition terms_H85hR (A C : R) : terms := [(Zv 1 (-1) 0, A - C); (Zv 1 0 (-1), A - C); (Zv 0 1 (-1), A - C); (Zv 1 0 0, 3 * C); (Zv 0 1 0, 3 * C); (Zv 0 0 1, 3 * C)].
Lemma zone_H85hR r K a c pts : 0 < K -> 0 < a -> 0 < c -> nonneg (terms_H85hR (2 / (3 * (a * a))) (/ (c * c))) -> metric r K (terms_H85hR (2 / (3 * (a * a))) (/ (c * c))) -> hpkot_table_85 a c = Ok pts -> Forall (zone_ok r) pts.
Proof.
  intros KP Ha Hc NN MET H. zone_start H hpkot_table_85. unfold terms_H85hR in *.
  apply Forall_cons; [apply gamma_ok|].
  apply Forall_cons; [pt_ring KP MET NN [0; 0; 0; 1; 1; 1] (Zv 1 1 1)|]. (* T *)
  apply Forall_cons; [pt_ring KP MET NN [1; 1; 0; 1; 0; 0] (Zv 1 0 0)|]. (* L *)
  apply Forall_cons; [pt_ring KP MET NN [1; 0; (-1); 0; (-1); 0] (Zv 0 (-1) 0)|]. (* L2 *)
  apply Forall_cons; [pt_ring KP MET NN [0; 1; 1; 0; 0; (-1)] (Zv 0 0 (-1))|]. (* L4 *)
  apply Forall_cons; [pt_ring KP MET NN [1; 0; (-1); 1; 0; 1] (Zv 1 0 1)|]. (* F *)
  apply Forall_cons; [pt_ring KP MET NN [0; 1; 1; 1; 1; 0] (Zv 1 1 0)|]. (* F2 *)
  apply Forall_cons; [pt_ring KP MET NN [1; 1; (-1); 1; (-1); 0] (Zv 0 (-1) 0)|]. (* S0 *)
  apply Forall_cons; [pt_ring KP MET NN [1; 1; (-1); 1; 0; 1] (Zv 1 0 0)|]. (* S2 *)
  apply Forall_cons; [pt_ring KP MET NN [1; 1; 1; 1; 0; (-1)] (Zv 0 0 (-1))|]. (* S4 *)
  apply Forall_cons; [pt_ring KP MET NN [1; 1; 1; 1; 1; 0] (Zv 1 0 0)|]. (* S6 *)
  apply Forall_cons; [pt_ring KP MET NN [1; 1; (-1); 1; (-1); 1] (Zv 0 (-1) 0)|]. (* H0 *)
  apply Forall_cons; [pt_ring KP MET NN [1; 1; (-1); 1; 1; 1] (Zv 1 0 0)|]. (* H2 *)
  apply Forall_cons; [pt_ring KP MET NN [1; 1; 1; 1; 1; 1] (Zv 1 0 0)|]. (* H4 *)
  apply Forall_cons; [pt_ring KP MET NN [1; 1; 1; 1; 1; (-1)] (Zv 0 0 (-1))|]. (* H6 *)
  apply Forall_cons; [pt_ring KP MET NN [1; 0; (-1); 1; (-1); 1] (Zv 0 (-1) 0)|]. (* M0 *)
  apply Forall_cons; [pt_ring KP MET NN [1; 0; (-1); 1; 1; 1] (Zv 1 0 1)|]. (* M2 *)
  apply Forall_cons; [pt_ring KP MET NN [1; 1; 0; 1; 1; 1] (Zv 1 0 0)|]. (* M4 *)
  apply Forall_cons; [pt_ring KP MET NN [0; 1; 1; 1; 1; 1] (Zv 1 1 0)|]. (* M6 *)
  apply Forall_cons; [pt_ring KP MET NN [0; 1; 1; 1; 1; (-1)] (Zv 0 0 (-1))|]. (* M8 *)
  apply Forall_nil.
Qed.
Definition terms_H86hR (A C : R) : terms := [(Zv 1 1 1, C - A); (Zv 1 0 0, 3 * A); (Zv 0 1 0, 3 * A); (Zv 0 0 1, 3 * A)].
Lemma zone_H86hR r K a c pts : 0 < K -> 0 < a -> 0 < c -> nonneg (terms_H86hR (2 / (3 * (a * a))) (/ (c * c))) -> metric r K (terms_H86hR (2 / (3 * (a * a))) (/ (c * c))) -> hpkot_table_86 a c = Ok pts -> Forall (zone_ok r) pts.
Proof.
  intros KP Ha Hc NN MET H. zone_start H hpkot_table_86. unfold terms_H86hR in *.
  apply Forall_cons; [apply gamma_ok|].
  apply Forall_cons; [pt_ring KP MET NN [1; 1; (-1); 1] (Zv 0 0 1)|]. (* T *)
  apply Forall_cons; [pt_ring KP MET NN [(-1); 1; (-1); 1] (Zv 0 (-1) 0)|]. (* P0 *)
  apply Forall_cons; [pt_ring KP MET NN [1; 1; 1; 1] (Zv 0 0 1)|]. (* P2 *)
  apply Forall_cons; [pt_ring KP MET NN [1; 1; (-1); (-1)] (Zv 1 0 0)|]. (* R0 *)
  apply Forall_cons; [pt_ring KP MET NN [0; 1; (-1); 1] (Zv 0 (-1) 1)|]. (* M *)
  apply Forall_cons; [pt_ring KP MET NN [0; 1; (-1); (-1)] (Zv 1 (-1) 0)|]. (* M2 *)
  apply Forall_cons; [pt_ring KP MET NN [1; 1; 0; 0] (Zv 1 0 0)|]. (* L *)
  apply Forall_cons; [pt_ring KP MET NN [0; 1; (-1); 0] (Zv 1 (-1) 0)|]. (* F *)
  apply Forall_nil.
Qed.
Lemma zone_S2cP r K a pts : 0 < K -> 0 < a -> nonneg (terms_H69cP (/ (a * a)) (/ (a * a)) (/ (a * a))) -> metric r K (terms_H69cP (/ (a * a)) (/ (a * a)) (/ (a * a))) -> sc_table_2 = Ok pts -> Forall (zone_ok r) pts.
Proof.
  intros KP Ha NN MET H. zone_start H sc_table_2. unfold terms_H69cP in *.
  apply Forall_cons; [apply gamma_ok|].
  apply Forall_cons; [pt_const KP MET NN [1; 1; 0] (Zv 0 1 0)|]. (* M *)
  apply Forall_cons; [pt_const KP MET NN [1; 1; 1] (Zv 0 0 1)|]. (* R *)
  apply Forall_cons; [pt_const KP MET NN [0; 1; 0] (Zv 0 1 0)|]. (* X *)
  apply Forall_nil.
Qed.
Lemma zone_S3cF r K a pts : 0 < K -> 0 < a -> nonneg (terms_H70cF (/ (a * a)) (/ (a * a)) (/ (a * a))) -> metric r K (terms_H70cF (/ (a * a)) (/ (a * a)) (/ (a * a))) -> sc_table_3 = Ok pts -> Forall (zone_ok r) pts.
Proof.
  intros KP Ha NN MET H. zone_start H sc_table_3. unfold terms_H70cF in *.
  apply Forall_cons; [apply gamma_ok|].
  apply Forall_cons; [pt_const KP MET NN [0; (-1); (-1); 1; 1; 1] (Zv 0 0 1)|]. (* K *)
  apply Forall_cons; [pt_const KP MET NN [0; 0; 0; 1; 1; 1] (Zv 1 1 1)|]. (* L *)
  apply Forall_cons; [pt_const KP MET NN [1; 0; (-1); 1; 1; 1] (Zv 1 0 1)|]. (* U *)
  apply Forall_cons; [pt_const KP MET NN [1; (-1); (-1); 1; 1; 1] (Zv 0 0 1)|]. (* W *)
  apply Forall_cons; [pt_const KP MET NN [1; 0; (-1); 1; 0; 1] (Zv 1 0 1)|]. (* X *)
  apply Forall_nil.
Qed.
Lemma zone_S4cI r K a pts : 0 < K -> 0 < a -> nonneg (terms_H71cI (/ (a * a))) -> metric r K (terms_H71cI (/ (a * a))) -> sc_table_4 = Ok pts -> Forall (zone_ok r) pts.
Proof.
  intros KP Ha NN MET H. zone_start H sc_table_4. unfold terms_H71cI in *.
  apply Forall_cons; [apply gamma_ok|].
  apply Forall_cons; [pt_const KP MET NN [1; (-1); 1; 1] (Zv 0 0 1)|]. (* H *)
  apply Forall_cons; [pt_const KP MET NN [1; 1; 1; 1] (Zv 0 0 1)|]. (* P *)
  apply Forall_cons; [pt_const KP MET NN [0; 0; 1; 1] (Zv 0 0 1)|]. (* N *)
  apply Forall_nil.
Qed.
Lemma zone_S5tP r K a c pts : 0 < K -> 0 < a -> 0 < c -> nonneg (terms_H69cP (/ (a * a)) (/ (a * a)) (/ (c * c))) -> metric r K (terms_H69cP (/ (a * a)) (/ (a * a)) (/ (c * c))) -> sc_table_5 = Ok pts -> Forall (zone_ok r) pts.
Proof.
  intros KP Ha Hc NN MET H. zone_start H sc_table_5. unfold terms_H69cP in *.
  apply Forall_cons; [apply gamma_ok|].
  apply Forall_cons; [pt_ring KP MET NN [1; 1; 1] (Zv 0 0 1)|]. (* A *)
  apply Forall_cons; [pt_ring KP MET NN [1; 1; 0] (Zv 0 1 0)|]. (* M *)
  apply Forall_cons; [pt_ring KP MET NN [0; 1; 1] (Zv 0 0 1)|]. (* R *)
  apply Forall_cons; [pt_ring KP MET NN [0; 1; 0] (Zv 0 1 0)|]. (* X *)
  apply Forall_cons; [pt_ring KP MET NN [0; 0; 1] (Zv 0 0 1)|]. (* Z *)
  apply Forall_nil.
Qed.
Lemma zone_S6tI r K a c pts : 0 < K -> 0 < a -> 0 < c -> nonneg (terms_H73tI (/ (a * a)) (/ (c * c))) -> metric r K (terms_H73tI (/ (a * a)) (/ (c * c))) -> sc_table_6 a c = Ok pts -> Forall (zone_ok r) pts.
Proof.
  intros KP Ha Hc NN MET H. zone_start H sc_table_6. unfold terms_H73tI in *.
  apply Forall_cons; [apply gamma_ok|].
  apply Forall_cons; [pt_ring KP MET NN [(-1); 1; 1; 1; 0] (Zv 0 0 1)|]. (* M *)
  apply Forall_cons; [pt_ring KP MET NN [0; 1; 0; 1; 1] (Zv 0 1 0)|]. (* N *)
  apply Forall_cons; [pt_ring KP MET NN [1; 1; 1; 1; 1] (Zv 0 0 1)|]. (* P *)
  apply Forall_cons; [pt_ring KP MET NN [0; 0; 1; 1; 0] (Zv 0 0 1)|]. (* X *)
  apply Forall_cons; [pt_ring KP MET NN [1; 1; (-1); 1; 1] (Zv 0 1 0)|]. (* Z *)
  apply Forall_cons; [pt_ring KP MET NN [(-1); 1; 1; 1; 1] (Zv 0 0 1)|]. (* Z1 *)
  apply Forall_nil.
Qed.
Lemma zone_S7tI r K a c pts : 0 < K -> 0 < a -> 0 < c -> nonneg (terms_H74tI (/ (a * a)) (/ (a * a)) (/ (c * c))) -> metric r K (terms_H74tI (/ (a * a)) (/ (a * a)) (/ (c * c))) -> sc_table_7 a c = Ok pts -> Forall (zone_ok r) pts.
Proof.
  intros KP Ha Hc NN MET H. zone_start H sc_table_7. unfold terms_H74tI in *.
  apply Forall_cons; [apply gamma_ok|].
  apply Forall_cons; [pt_ring KP MET NN [0; 1; 0; 1; 1; 0] (Zv 0 1 0)|]. (* N *)
  apply Forall_cons; [pt_ring KP MET NN [1; 1; 1; 1; 1; 1] (Zv 0 0 1)|]. (* P *)
  apply Forall_cons; [pt_ring KP MET NN [(-1); 1; 1; 1; 1; 0] (Zv 0 1 0)|]. (* SIGMA *)
  apply Forall_cons; [pt_ring KP MET NN [1; 1; (-1); 1; 1; 0] (Zv 0 1 0)|]. (* SIGMA1 *)
  apply Forall_cons; [pt_ring KP MET NN [0; 0; 1; 1; 1; 1] (Zv 0 0 1)|]. (* X *)
  apply Forall_cons; [pt_ring KP MET NN [(-1); 1; 1; 1; 1; 1] (Zv 0 0 1)|]. (* Y *)
  apply Forall_cons; [pt_ring KP MET NN [1; 1; (-1); 1; 1; 1] (Zv 0 1 0)|]. (* Y1 *)
  apply Forall_cons; [pt_ring KP MET NN [1; 1; (-1); 1; 0; 0] (Zv 1 1 (-1))|]. (* Z *)
  apply Forall_nil.
Qed.
Lemma zone_S8oP r K a b c pts : 0 < K -> 0 < a -> 0 < b -> 0 < c -> nonneg (terms_H69cP (/ (a * a)) (/ (b * b)) (/ (c * c))) -> metric r K (terms_H69cP (/ (a * a)) (/ (b * b)) (/ (c * c))) -> sc_table_8 = Ok pts -> Forall (zone_ok r) pts.
Proof.
  intros KP Ha Hb Hc NN MET H. zone_start H sc_table_8. unfold terms_H69cP in *.
  apply Forall_cons; [apply gamma_ok|].
  apply Forall_cons; [pt_ring KP MET NN [1; 1; 1] (Zv 0 0 1)|]. (* R *)
  apply Forall_cons; [pt_ring KP MET NN [1; 1; 0] (Zv 0 1 0)|]. (* S *)
  apply Forall_cons; [pt_ring KP MET NN [0; 1; 1] (Zv 0 0 1)|]. (* T *)
  apply Forall_cons; [pt_ring KP MET NN [1; 0; 1] (Zv 0 0 1)|]. (* U *)
  apply Forall_cons; [pt_ring KP MET NN [1; 0; 0] (Zv 1 0 0)|]. (* X *)
  apply Forall_cons; [pt_ring KP MET NN [0; 1; 0] (Zv 0 1 0)|]. (* Y *)
  apply Forall_cons; [pt_ring KP MET NN [0; 0; 1] (Zv 0 0 1)|]. (* Z *)
  apply Forall_nil.
Qed.
Lemma zone_S9oF r K a b c pts : 0 < K -> 0 < a -> 0 < b -> 0 < c -> nonneg (terms_H76oF (/ (a * a)) (/ (b * b)) (/ (c * c))) -> metric r K (terms_H76oF (/ (a * a)) (/ (b * b)) (/ (c * c))) -> sc_table_9 a b c = Ok pts -> Forall (zone_ok r) pts.
Proof.
  intros KP Ha Hb Hc NN MET H. zone_start H sc_table_9. unfold terms_H76oF in *.
  apply Forall_cons; [apply gamma_ok|].
  apply Forall_cons; [pt_ring KP MET NN [1; 1; 1; 1; (-1)] (Zv 0 1 0)|]. (* A *)
  apply Forall_cons; [pt_ring KP MET NN [1; 1; (-1); 1; 1] (Zv 0 0 1)|]. (* A1 *)
  apply Forall_cons; [pt_ring KP MET NN [1; 1; 0; 1; 0] (Zv 1 1 1)|]. (* L *)
  apply Forall_cons; [pt_ring KP MET NN [0; 1; (-1); 1; (-1)] (Zv 1 0 1)|]. (* T *)
  apply Forall_cons; [pt_ring KP MET NN [1; 1; 1; 1; 1] (Zv (-1) 0 0)|]. (* X *)
  apply Forall_cons; [pt_ring KP MET NN [1; 1; (-1); 1; (-1)] (Zv 1 0 1)|]. (* X1 *)
  apply Forall_cons; [pt_ring KP MET NN [0; 1; (-1); 0; 0] (Zv 1 0 1)|]. (* Y *)
  apply Forall_cons; [pt_ring KP MET NN [0; 0; 0; 1; (-1)] (Zv 1 1 0)|]. (* Z *)
  apply Forall_nil.
Qed.
Lemma zone_S10oF r K a b c pts : 0 < K -> 0 < a -> 0 < b -> 0 < c -> nonneg (terms_H70cF (/ (a * a)) (/ (b * b)) (/ (c * c))) -> metric r K (terms_H70cF (/ (a * a)) (/ (b * b)) (/ (c * c))) -> sc_table_10 a b c = Ok pts -> Forall (zone_ok r) pts.
Proof.
  intros KP Ha Hb Hc NN MET H. zone_start H sc_table_10. unfold terms_H70cF in *.
  apply Forall_cons; [apply gamma_ok|].
  apply Forall_cons; [pt_ring KP MET NN [1; (-1); (-1); 1; 1; 1] (Zv 0 0 1)|]. (* C *)
  apply Forall_cons; [pt_ring KP MET NN [(-1); 1; 1; 1; 1; 1] (Zv 0 1 0)|]. (* C1 *)
  apply Forall_cons; [pt_ring KP MET NN [(-1); (-1); (-1); 1; 1; 1] (Zv 0 0 1)|]. (* D *)
  apply Forall_cons; [pt_ring KP MET NN [1; 1; 1; 1; 1; 1] (Zv 1 0 0)|]. (* D1 *)
  apply Forall_cons; [pt_ring KP MET NN [0; 0; 0; 1; 1; 1] (Zv 1 1 1)|]. (* L *)
  apply Forall_cons; [pt_ring KP MET NN [1; 1; (-1); 1; 1; 1] (Zv 1 0 0)|]. (* H *)
  apply Forall_cons; [pt_ring KP MET NN [(-1); (-1); 1; 1; 1; 1] (Zv 0 1 0)|]. (* H1 *)
  apply Forall_cons; [pt_ring KP MET NN [(-1); (-1); 0; 0; 1; 1] (Zv 0 1 1)|]. (* X *)
  apply Forall_cons; [pt_ring KP MET NN [1; 0; (-1); 1; 0; 1] (Zv 1 0 1)|]. (* Y *)
  apply Forall_cons; [pt_ring KP MET NN [0; 1; 1; 1; 1; 0] (Zv 1 1 0)|]. (* Z *)
  apply Forall_nil.
Qed.
Lemma zone_S11oI r K a b c pts : 0 < K -> 0 < a -> 0 < b -> 0 < c -> nonneg (terms_H74tI (/ (a * a)) (/ (b * b)) (/ (c * c))) -> metric r K (terms_H74tI (/ (a * a)) (/ (b * b)) (/ (c * c))) -> sc_table_11 a b c = Ok pts -> Forall (zone_ok r) pts.
Proof.
  intros KP Ha Hb Hc NN MET H. zone_start H sc_table_11. unfold terms_H74tI in *.
  apply Forall_cons; [apply gamma_ok|].
  apply Forall_cons; [pt_ring KP MET NN [(-1); 1; 1; 1; 1; 1] (Zv 0 0 1)|]. (* L *)
  apply Forall_cons; [pt_ring KP MET NN [1; (-1); 1; 1; 1; 1] (Zv 0 0 1)|]. (* L1 *)
  apply Forall_cons; [pt_ring KP MET NN [1; 1; (-1); 1; 1; 1] (Zv 0 1 0)|]. (* L2 *)
  apply Forall_cons; [pt_ring KP MET NN [0; 1; 0; 1; 1; 0] (Zv 0 1 0)|]. (* R *)
  apply Forall_cons; [pt_ring KP MET NN [1; 0; 0; 1; 0; 1] (Zv 1 0 0)|]. (* S *)
  apply Forall_cons; [pt_ring KP MET NN [0; 0; 1; 1; 1; 1] (Zv 0 0 1)|]. (* T *)
  apply Forall_cons; [pt_ring KP MET NN [1; 1; 1; 1; 1; 1] (Zv 0 0 1)|]. (* W *)
  apply Forall_cons; [pt_ring KP MET NN [(-1); 1; 1; 1; 1; 0] (Zv 0 1 0)|]. (* X *)
  apply Forall_cons; [pt_ring KP MET NN [1; 1; (-1); 1; 1; 0] (Zv 0 1 0)|]. (* X1 *)
  apply Forall_cons; [pt_ring KP MET NN [1; (-1); 1; 1; 0; 1] (Zv 1 0 0)|]. (* Y *)
  apply Forall_cons; [pt_ring KP MET NN [1; 1; (-1); 1; 0; 1] (Zv 1 0 0)|]. (* Y1 *)
  apply Forall_cons; [pt_ring KP MET NN [1; 1; (-1); 1; 0; 0] (Zv 1 1 (-1))|]. (* Z *)
  apply Forall_nil.
Qed.
Lemma zone_S12oC r K a b c pts : 0 < K -> 0 < a -> 0 < b -> 0 < c -> nonneg (terms_H82oC (/ (a * a)) (/ (b * b)) (/ (c * c))) -> metric r K (terms_H82oC (/ (a * a)) (/ (b * b)) (/ (c * c))) -> sc_table_12 a b = Ok pts -> Forall (zone_ok r) pts.
Proof.
  intros KP Ha Hb Hc NN MET H. zone_start H sc_table_12. unfold terms_H82oC in *.
  apply Forall_cons; [apply gamma_ok|].
  apply Forall_cons; [pt_ring KP MET NN [1; 1; 1; 1] (Zv 0 0 1)|]. (* A *)
  apply Forall_cons; [pt_ring KP MET NN [1; (-1); 1; 1] (Zv 0 0 1)|]. (* A1 *)
  apply Forall_cons; [pt_ring KP MET NN [1; 0; 1; 1] (Zv 0 0 1)|]. (* R *)
  apply Forall_cons; [pt_ring KP MET NN [1; 0; 1; 0] (Zv 0 1 0)|]. (* S *)
  apply Forall_cons; [pt_ring KP MET NN [1; (-1); 0; 1] (Zv 0 0 1)|]. (* T *)
  apply Forall_cons; [pt_ring KP MET NN [1; 1; 1; 0] (Zv 0 1 0)|]. (* X *)
  apply Forall_cons; [pt_ring KP MET NN [1; (-1); 1; 0] (Zv 0 1 0)|]. (* X1 *)
  apply Forall_cons; [pt_ring KP MET NN [1; (-1); 0; 0] (Zv (-1) 1 0)|]. (* Y *)
  apply Forall_cons; [pt_ring KP MET NN [0; 0; 0; 1] (Zv 0 0 1)|]. (* Z *)
  apply Forall_nil.
Qed.
Lemma zone_S12oA r K a b c pts : 0 < K -> 0 < a -> 0 < b -> 0 < c -> nonneg (terms_H82oC (/ (a * a)) (/ (b * b)) (/ (c * c))) -> metric r K (terms_H82oC (/ (a * a)) (/ (b * b)) (/ (c * c))) -> sc_table_12 a b = Ok pts -> Forall (zone_ok r) pts.
Proof.
  intros KP Ha Hb Hc NN MET H. zone_start H sc_table_12. unfold terms_H82oC in *.
  apply Forall_cons; [apply gamma_ok|].
  apply Forall_cons; [pt_ring KP MET NN [1; 1; 1; 1] (Zv 0 0 1)|]. (* A *)
  apply Forall_cons; [pt_ring KP MET NN [1; (-1); 1; 1] (Zv 0 0 1)|]. (* A1 *)
  apply Forall_cons; [pt_ring KP MET NN [1; 0; 1; 1] (Zv 0 0 1)|]. (* R *)
  apply Forall_cons; [pt_ring KP MET NN [1; 0; 1; 0] (Zv 0 1 0)|]. (* S *)
  apply Forall_cons; [pt_ring KP MET NN [1; (-1); 0; 1] (Zv 0 0 1)|]. (* T *)
  apply Forall_cons; [pt_ring KP MET NN [1; 1; 1; 0] (Zv 0 1 0)|]. (* X *)
  apply Forall_cons; [pt_ring KP MET NN [1; (-1); 1; 0] (Zv 0 1 0)|]. (* X1 *)
  apply Forall_cons; [pt_ring KP MET NN [1; (-1); 0; 0] (Zv (-1) 1 0)|]. (* Y *)
  apply Forall_cons; [pt_ring KP MET NN [0; 0; 0; 1] (Zv 0 0 1)|]. (* Z *)
  apply Forall_nil.
Qed.
Lemma zone_S13hP r K a c pts : 0 < K -> 0 < a -> 0 < c -> nonneg (terms_H84hP (2 / (3 * (a * a))) (/ (c * c))) -> metric r K (terms_H84hP (2 / (3 * (a * a))) (/ (c * c))) -> sc_table_13 = Ok pts -> Forall (zone_ok r) pts.
Proof.
  intros KP Ha Hc NN MET H. zone_start H sc_table_13. unfold terms_H84hP in *.
  apply Forall_cons; [apply gamma_ok|].
  apply Forall_cons; [pt_ring KP MET NN [0; 0; 0; 1] (Zv 0 0 1)|]. (* A *)
  apply Forall_cons; [pt_ring KP MET NN [1; 1; 1; 1] (Zv 0 0 1)|]. (* H *)
  apply Forall_cons; [pt_ring KP MET NN [1; 1; 1; 0] (Zv 0 1 0)|]. (* K *)
  apply Forall_cons; [pt_ring KP MET NN [1; 0; 1; 1] (Zv 0 0 1)|]. (* L *)
  apply Forall_cons; [pt_ring KP MET NN [1; 0; 1; 0] (Zv 1 0 0)|]. (* M *)
  apply Forall_nil.
Qed.
